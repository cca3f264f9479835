(** What the properties about built-in meshes say, apart from the code. *)
From Coq Require Import Floats.SpecFloat Permutation.
From Verif Require Import Base Text Image Sound Quantize ColorText JsonFloat Mesh SpecMesh Browser SpecBrowser Builtin.

(** The corners of a prism over a polygon, and the two centres of its caps *)
Inductive place : Set := TopCentre | BottomCentre | Top (i : Z) | Bottom (i : Z).
(** Where the vertices are: the centre and the corners of the upper cap, those of the lower cap, and the corners once more for the sides *)
Definition place_of (n k : Z) : place :=
  if k =? 0 then TopCentre else if k <? n + 1 then Top (k - 1)
  else if k =? n + 1 then BottomCentre else if k <? 2 * n + 2 then Bottom (k - (n + 2))
  else if k <? 3 * n + 2 then Top (k - (2 * n + 2)) else Bottom (k - (3 * n + 2)).
Definition position_of (v : Vtx) : f32 * f32 * f32 := (v_x v, v_y v, v_z v).
(** The edges of triangles, each from one corner to the next *)
Definition edges (fs : list face) : list (Z * Z) := flat_map (fun f => [(f_0 f, f_1 f); (f_1 f, f_2 f); (f_2 f, f_0 f)]) fs.
Definition places (n : Z) (e : Z * Z) : place * place := (place_of n (fst e), place_of n (snd e)).
(** A closed surface with two sides: every edge belongs to one triangle in each of its two directions *)
Definition closed_surface {A} (es : list (A * A)) : Prop := NoDup es /\ forall a b, In (a, b) es -> In (b, a) es.
Definition turned (f : face) : face := mkFace (f_0 f) (f_2 f) (f_1 f).
Definition distinct_corners (f : face) : Prop := f_0 f <> f_1 f /\ f_1 f <> f_2 f /\ f_2 f <> f_0 f.

Definition above_zero (x : f32) : Prop := SFltb (S754_zero false) (f32_value x) = true.
Definition below_zero (x : f32) : Prop := SFltb (f32_value x) (S754_zero false) = true.
Definition le32 (x y : f32) : Prop := SFleb (f32_value x) (f32_value y) = true.
(** The numbers of an axis of an array of triples, the smallest and the largest of them *)
Definition on_axis (k : nat) (l : list f32) (x : f32) : Prop := exists j, nth_error l (3 * j + k) = Some x.
Definition least_on (P : f32 -> Prop) (m : f32) : Prop := P m /\ forall x, P x -> le32 m x.
Definition greatest_on (P : f32 -> Prop) (m : f32) : Prop := P m /\ forall x, P x -> le32 x m.
Definition nth_of (k : nat) (p : f32 * f32 * f32) : f32 := let '(a, b, c) := p in match k with O => a | S O => b | _ => c end.
