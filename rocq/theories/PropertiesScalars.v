(** C54 (numbers and flags in records), and more about C21 (quantisation). *)
From Coq Require Import Lia Floats.SpecFloat.
From Verif Require Import Base Biff Quantize Common ItemBase SpecBiff.
From Verif Require Import BaseFacts ScalarFacts.

(** * C54: numbers and flags *)
(** Any numbers written under one tag are read back with the same bits, whichever of the 32-bit types they are. *)
Theorem C54_numbers : forall t (xs : list w32), valid_tag t -> t <> "ENDB"%string ->
  exists b, run_writer (wfor xs (write_tagged_u32 t) >>> close true) = Ok b /\ run_writer (wfor xs (write_tagged_i32 t) >>> close true) = Ok b /\
    run_writer (wfor xs (write_tagged_f32 t) >>> close true) = Ok b /\
    forall checked, read_values t get_u32 checked b = Ok xs /\ read_values t get_i32 checked b = Ok xs /\ read_values t get_32 checked b = Ok xs /\
      read_values t get_f32 checked b = Ok xs.
Proof. exact numbers_written. Qed.
Print Assumptions C54_numbers.
(** Flags are read back, and a number read as a flag is true exactly if it is not zero. *)
Theorem C54_flags : forall t, valid_tag t -> t <> "ENDB"%string ->
  (forall xs, exists b, run_writer (wfor xs (write_tagged_bool t) >>> close true) = Ok b /\ forall checked, read_values t get_bool checked b = Ok xs) /\
  (forall xs : list u32, exists b, run_writer (wfor xs (write_tagged_u32 t) >>> close true) = Ok b /\
     forall checked, read_values t get_bool checked b = Ok (map (fun x => negb (w32_to_Z x =? 0)) xs)).
Proof. intros t Ht He. split; intros xs; [exact (flags_written t xs Ht He)|exact (flags_read t xs Ht He)]. Qed.
Print Assumptions C54_flags.
Example C54_example : valid_tag "FLAG" /\ "FLAG"%string <> "ENDB"%string /\
  match run_writer (wfor [Z_to_w32 0; Z_to_w32 1; Z_to_w32 0x01000000; Z_to_w32 0xffffffff] (write_tagged_u32 "FLAG") >>> close true) with
  | Ok b => read_values "FLAG" get_bool true b = Ok [false; true; true; true]
  | _ => False
  end.
Proof.
  split; [|split; [discriminate|vm_compute; reflexivity]]. split; [cbn; lia|]. cbn. intros H; repeat destruct H as [H|H]; try discriminate; assumption.
Qed.

(** * C21: what the codes mean *)
(** The least code is 0.0, the greatest 1.0, and a greater code is a greater value. *)
Definition codes (n : nat) : list Z := map Z.of_nat (seq 0 n).
Lemma in_codes n z : 0 <= z < Z.of_nat n -> In z (codes n).
Proof. intros H. unfold codes. rewrite <- (Z2Nat.id z) by lia. apply in_map, in_seq. lia. Qed.
Definition grows (value : Z -> f32) (max : Z) : Prop :=
  value 0 = Z_to_w32 0 /\ value max = Z_to_w32 1065353216 /\
  forall p q, 0 <= p < q -> q <= max -> SFltb (f32_value (value p)) (f32_value (value q)) = true.
Lemma grows_all value n :
  w32_to_Z (value 0) = 0 -> w32_to_Z (value (Z.of_nat n - 1)) = 1065353216 ->
  (let l := map (fun z => (z, f32_value (value z))) (codes n) in
   forallb (fun p => forallb (fun q => (fst q <=? fst p) || SFltb (snd p) (snd q)) l) l) = true -> grows value (Z.of_nat n - 1).
Proof.
  intros E0 E1 H. cbv zeta in H. split; [|split].
  - rewrite <- (Z_to_w32_to_Z (value 0)), E0. reflexivity.
  - rewrite <- (Z_to_w32_to_Z (value (Z.of_nat n - 1))), E1. reflexivity.
  - intros p q Hp Hq. rewrite forallb_forall in H.
    specialize (H (p, f32_value (value p))). cbn [fst snd] in H. rewrite forallb_forall in H.
    specialize (H (in_map (fun z => (z, f32_value (value z))) _ _ (in_codes n p ltac:(lia)))).
    specialize (H (q, f32_value (value q)) (in_map (fun z => (z, f32_value (value z))) _ _ (in_codes n q ltac:(lia)))). cbn [fst snd] in H.
    apply orb_true_iff in H. destruct H as [H|H]; [|exact H]. lia.
Qed.
Theorem C21_values : grows (fun q => dequantize_unsigned_8 (Z_to_w32 q)) 255 /\ grows (fun q => dequantize_unsigned_percent (Z_to_w32 q)) 100 /\
  grows (fun q => dequantize_u8 7 (Z_to_byte q)) 127 /\ grows (fun q => dequantize_u8 8 (Z_to_byte q)) 255.
Proof.
  split; [|split; [|split]].
  - apply (grows_all _ 256); vm_compute; reflexivity.
  - apply (grows_all _ 101); vm_compute; reflexivity.
  - apply (grows_all _ 128); vm_compute; reflexivity.
  - apply (grows_all _ 256); vm_compute; reflexivity.
Qed.
Print Assumptions C21_values.
