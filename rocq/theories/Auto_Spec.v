(** Notions used to state the properties of the reading of cp.auto files *)
From Coq Require Import QArith Qabs.
From Verif Require Import Common Json_Spec Julia_Spec.
Local Open Scope string_scope.
Local Open Scope nat_scope.
Local Open Scope list_scope.

(** a blank: the characters 9 to 13 and 28 to 32 *)
Definition blank (c : ascii) : Prop := let n := nat_of_ascii c in 9 <= n <= 13 \/ 28 <= n <= 32.
Definition blanks (s : string) : Prop := forall c, In c (chars s) -> blank c.
(** [p] occurs in [s] *)
Definition occurs (p s : string) : Prop := exists a b, s = (a ++ p ++ b)%string.
(** the lines [ls] of a file hold the lines [ds], besides blank lines and dashed lines *)
Inductive sifted : list string -> list string -> Prop :=
| s_nil : sifted [] []
| s_blank s ls ds : blanks s -> sifted ls ds -> sifted (s :: ls) ds
| s_dash s ls ds : occurs "--------" s -> sifted ls ds -> sifted (s :: ls) ds
| s_line s c w ls ds : ~ blank c -> blanks w -> ~ occurs "--------" (s ++ String c "") -> sifted ls ds ->
    sifted ((s ++ String c w)%string :: ls) ((s ++ String c "")%string :: ds).

(** ** the contents of a file *)
(** [t]: titles, [h]: the four header lines, [g]: parent gradient, [w]: parent Hessian, [e1] [e2]: the two blocks
    of energies, [lt] [l]: linear couplings, [dt] [d]: diagonal, [ot] [o]: off-diagonal couplings *)
Record doc := mkDoc { t : nat -> string; h : nat -> string; g : nat -> string; w : nat -> string; e1 : nat -> string; e2 : nat -> string;
  lt : nat -> string; l : nat -> nat -> string; dt : nat -> string; d : nat -> nat -> string; ot : nat -> nat -> string; o : nat -> nat -> nat -> string }.
Definition doc_lines (x : doc) : list string :=
  [t x 0] ++ [h x 0; h x 1; h x 2; h x 3] ++
  [t x 1] ++ map (g x) (seq 0 12) ++
  [t x 2] ++ map (w x) (seq 0 12) ++
  [t x 3] ++ [e1 x 0; e1 x 1] ++ [e2 x 0; e2 x 1] ++
  [t x 4] ++ flat_map (fun i => [lt x i; l x i 0; l x i 1]) (seq 0 12) ++
  [t x 5] ++ flat_map (fun i => [dt x i; d x i 0; d x i 1]) (seq 0 12) ++
  [t x 6] ++ flat_map (fun i => flat_map (fun j => [ot x i j; o x i j 0; o x i j 1]) (seq 0 i)) (seq 0 12).

(** the values in a document *)
Record vals := mkVals { freq : nat -> Q; energy0 : nat -> nat -> Q; energy : nat -> nat -> Q; lin : nat -> nat -> nat -> Q; quad : nat -> nat -> nat -> nat -> Q }.

Section Auto.
  Context (read_pair : string -> res (Q * Q)) (read_gradient read_int_record : string -> res unit) (py_float : string -> res Q).
  (** [v a b] is the number in column [b] of row [a] *)
  Definition rows (r : nat -> string) (v : nat -> nat -> Q) : Prop := forall a, a < 2 -> read_pair (r a) = Ok (v a 0, v a 1).
  Record holds (x : doc) (v : vals) : Prop := {
    H_h : forall i, i < 3 -> read_int_record (h x i) = Ok tt;
    H_w : forall i, i < 12 -> exists pre num post, w x i = (pre ++ "cm-1" ++ num ++ "eV" ++ post)%string /\
            ~ occurs "cm-1" (pre ++ "cm-") /\ ~ occurs "eV" (num ++ "e") /\ py_float num = Ok (freq v i);
    H_e1 : rows (e1 x) (energy0 v);
    H_e2 : rows (e2 x) (energy v);
    H_lt : forall i, i < 12 -> read_gradient (lt x i) = Ok tt;
    H_l : forall i, i < 12 -> rows (l x i) (lin v i);
    H_dt : forall i, i < 12 -> read_gradient (dt x i) = Ok tt;
    H_d : forall i, i < 12 -> rows (d x i) (quad v i i);
    H_o : forall i j, j < i < 12 -> rows (o x i j) (quad v i j) }.

End Auto.
(** the couplings of a document are symmetric in the surfaces, up to the tolerance of allclose *)
Definition surface_symmetric (v : vals) : Prop := forall a b, a < 2 -> b < 2 ->
  (forall i, i < 12 -> (Qabs (lin v i a b - lin v i b a) <= (1 # 100000000) + (1 # 100000) * Qabs (lin v i b a))%Q) /\
  (forall i j, j <= i < 12 -> (Qabs (quad v i j a b - quad v i j b a) <= (1 # 100000000) + (1 # 100000) * Qabs (quad v i j b a))%Q).
