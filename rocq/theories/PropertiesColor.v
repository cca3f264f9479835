(** C26: the encodings of a colour. *)
From Verif Require Import Base Text Biff Common ColorText SpecColor.
From Verif Require Import BaseFacts BiffFacts CommonFacts ColorFacts.

(** The JSON text is "#rrggbb", or "uu#rrggbb" when the unused byte is not zero. *)
Theorem C26_text_written : forall c, color_text (Color_to_text c) c /\
  (List.length (Color_to_text c) = if byte_to_Z (c_unused c) =? 0 then 7%nat else 9%nat).
Proof. exact color_text_written. Qed.
Print Assumptions C26_text_written.
(** Every such text, in either case of the digits, is read as its colour; in particular the text written for a colour. *)
Theorem C26_text_read : forall t c, color_text t c -> Color_of_text t = Ok c.
Proof. exact color_text_read. Qed.
Print Assumptions C26_text_read.
Theorem C26_text_round_trip : forall c, Color_of_text (Color_to_text c) = Ok c.
Proof. intros c. apply color_text_read, color_text_written. Qed.
Print Assumptions C26_text_round_trip.
(** Nothing else is accepted, but for a plus sign in place of a first digit. *)
Theorem C26_text_accepted : forall t c, is_rstring t = true -> ~ In 43%N t -> Color_of_text t = Ok c -> color_text t c.
Proof. exact color_text_accepted. Qed.
Print Assumptions C26_text_accepted.
Example C26_text_example : Color_to_text (mkColor xff x0a x80 x00) = lit "#ff0a80" /\
  Color_to_text (mkColor x01 x02 x03 xff) = lit "ff#010203" /\
  Color_of_text (lit "#FF0a80") = Ok (mkColor xff x0a x80 x00) /\ Color_of_text (lit "#ff0a8g") = Err /\
  Color_of_text (lit "ff0a801") = Err /\ ~ In 43%N (lit "#FF0a80") /\ is_rstring (lit "#FF0a80") = true.
Proof.
  repeat split; try reflexivity. intros H.
  assert (E : existsb (N.eqb 43) (lit "#FF0a80") = true) by (apply existsb_exists; exists 43%N; split; [exact H|reflexivity]).
  discriminate E.
Qed.
(** A plus sign is read as a zero digit... *)
Theorem C26_plus_refuted : exists t c, Color_of_text t = Ok c /\ ~ color_text t c.
Proof.
  exists (lit "#+f+f+f"), (mkColor x0f x0f x0f x00). split; [reflexivity|].
  intros (r & g & b & (h & l & v & w & -> & Hh & _ & _) & _ & _ & [[E _]|(u & (h' & l' & v' & w' & -> & _) & E)]).
  - injection E as E _ _. subst h. unfold hex_digit_value in Hh. lia.
  - discriminate E.
Qed.
Print Assumptions C26_plus_refuted.
(** ... and a malformed text can abort the program instead of being rejected. *)
Theorem C26_malformed_refuted : exists t, is_rstring t = true /\ Color_of_text t = Panic.
Proof. exists [35; 49; 233; 51; 52; 53]%N. split; reflexivity. Qed.
Print Assumptions C26_malformed_refuted.

(** The packed 0xRRGGBB number keeps the three channels and drops the unused byte; the Windows number keeps all four. *)
Theorem C26_rgb : forall c, Color_from_rgb (Color_to_rgb c) = mkColor (c_r c) (c_g c) (c_b c) x00 /\
  Color_to_rgb c = 65536 * byte_to_Z (c_r c) + 256 * byte_to_Z (c_g c) + byte_to_Z (c_b c).
Proof. intros c. split; [apply rgb_of_color|unfold Color_to_rgb; lia]. Qed.
Print Assumptions C26_rgb.
Theorem C26_rgb_number : forall n, 0 <= n < 4294967296 -> Color_to_rgb (Color_from_rgb n) = n mod 16777216.
Proof. exact color_of_rgb. Qed.
Print Assumptions C26_rgb_number.
Theorem C26_windows : forall c, Color_from_win_color (Color_to_win_color c) = c /\
  Color_to_win_color c = 16777216 * byte_to_Z (c_unused c) + 65536 * byte_to_Z (c_b c) + 256 * byte_to_Z (c_g c) + byte_to_Z (c_r c).
Proof. intros c. split; [apply win_of_color|unfold Color_to_win_color; lia]. Qed.
Print Assumptions C26_windows.
Theorem C26_windows_number : forall n, 0 <= n < 4294967296 -> Color_to_win_color (Color_from_win_color n) = n.
Proof. exact color_of_win. Qed.
Print Assumptions C26_windows_number.
Example C26_number_example : Color_from_rgb 0x12345678 = mkColor x34 x56 x78 x00 /\ Color_from_win_color 0x12345678 = mkColor x78 x56 x34 x12 /\
  Color_to_rgb (mkColor x34 x56 x78 xff) = 0x345678.
Proof. repeat split. Qed.

(** In the file a colour is the four bytes red, green, blue, unused, and they are read back wherever they stand. *)
Theorem C26_binary : forall c,
  (forall w, exists w', Color_write c w = Ok w' /\ w_data w' = w_data w ++ [c_r c; c_g c; c_b c; c_unused c]) /\
  (forall before after remaining tag warn checked, 4 <= remaining -> exists r',
     Color_read (mkRd (before ++ [c_r c; c_g c; c_b c; c_unused c] ++ after) (zlen before) remaining tag warn checked) = Ok (c, r') /\
     r_pos r' = zlen before + 4 /\ r_rem r' = remaining - 4).
Proof.
  intros c. split.
  - intros w. eexists. split; [reflexivity|]. cbn. rewrite <- !app_assoc. reflexivity.
  - intros before after n t w ch H. eexists. split.
    + apply (Gets_color c before after n t w ch). exact H.
    + cbn [r_pos r_rem at_]. rewrite zlen_app. split; reflexivity.
Qed.
Print Assumptions C26_binary.
