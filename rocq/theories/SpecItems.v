(** The specification used by the statements about game items: what the records of an item look like on disk and what it
    means to put extra records between them.  Independent of the reader and writer models. *)
From Verif Require Import Base Text Biff SpecBiff.

(** The pieces an item is stored as: plain records, drag points (a DPNT header of size 4 followed by a record stream of
    its own) and fonts (a FONT header of size 4 followed by the font description). *)
Inductive piece :=
| Plain (r : string * bytes)
| Point (rs : list (string * bytes))
| Font (raw : bytes).
Definition piece_bytes (p : piece) : bytes :=
  match p with
  | Plain r => record_bytes r
  | Point rs => le32 4 ++ tag4 "DPNT" ++ stream_bytes rs
  | Font raw => le32 4 ++ tag4 "FONT" ++ raw
  end.
(** An item: its type number, its pieces, the end marker. *)
Definition item_bytes (type : Z) (ps : list piece) : bytes :=
  le32 type ++ flat_map piece_bytes ps ++ record_bytes ("ENDB"%string, []).

(** [Inserted known rs rs']: [rs'] is [rs] with any number of extra records at any positions; extra records are
    well-formed records whose tag is not [known]. *)
Inductive Inserted (known : list string) : list (string * bytes) -> list (string * bytes) -> Prop :=
| Inserted_nil : Inserted known [] []
| Inserted_same r rs rs' : Inserted known rs rs' -> Inserted known (r :: rs) (r :: rs')
| Inserted_extra r rs rs' :
    valid_record r -> ~ In (fst r) known -> Inserted known rs rs' -> Inserted known rs (r :: rs').
(** The same for the pieces of an item; extra records may also be put into the drag points. *)
Inductive ItemInserted (known known_in_point : list string) : list piece -> list piece -> Prop :=
| ItemInserted_nil : ItemInserted known known_in_point [] []
| ItemInserted_same p ps ps' : ItemInserted known known_in_point ps ps' -> ItemInserted known known_in_point (p :: ps) (p :: ps')
| ItemInserted_extra r ps ps' :
    valid_record r -> ~ In (fst r) known ->
    ItemInserted known known_in_point ps ps' -> ItemInserted known known_in_point ps (Plain r :: ps')
| ItemInserted_point rs rs' ps ps' :
    Inserted known_in_point rs rs' ->
    ItemInserted known known_in_point ps ps' -> ItemInserted known known_in_point (Point rs :: ps) (Point rs' :: ps').
