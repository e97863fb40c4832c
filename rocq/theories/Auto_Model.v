(** Model of vibronic/model_auto.py: reading a cp.auto file of VIBRON.

    Numbers are rational.  The Fortran records are read by parameters: the library
    fortranformat is not modelled.  The end of the file is the StopIteration of
    next(), here OtherException. *)
From Coq Require Import QArith Qabs.
From Verif Require Import Common PyStr_Model ModelOp_Model.
Local Open Scope string_scope.
Local Open Scope nat_scope.

(** model_auto.py:120-123: the lines of readlines(), cut at newlines *)
Definition newline : string := String "010"%char EmptyString.
(** model_auto.py:123 *)
Definition kept (line : string) : bool := negb (String.length (strip line) =? 0) && negb (contains "--------" (strip line)).
Definition lines_of (text : string) : list string := map rstrip (filter kept (split newline text)).

(** s.partition(sep)[0] and s.partition(sep)[2] *)
Definition before_ (sep s : string) : string := match split sep s with x :: _ => x | [] => s end.
Definition after_ (sep s : string) : string := match split sep s with _ :: x => String.concat sep x | [] => "" end.

(** a part of the program that takes lines from the iterator *)
Definition reader (A : Type) : Type := list string -> res (A * list string).
Definition ret {A} (a : A) : reader A := fun ls => Ok (a, ls).
Definition rbind {A B} (p : reader A) (q : A -> reader B) : reader B :=
  fun ls => match p ls with Ok (a, ls') => q a ls' | Raise e => Raise e end.
(** next(f_iter) *)
Definition next_line : reader string := fun ls => match ls with x :: ls' => Ok (x, ls') | [] => Raise OtherException end.
Definition lift {A} (r : res A) : reader A := fun ls => match r with Ok a => Ok (a, ls) | Raise e => Raise e end.
(** for i in l: a = body(i, a) *)
Fixpoint for_lines {I A} (l : list I) (body : I -> A -> reader A) (a : A) : reader A :=
  match l with
  | [] => ret a
  | i :: l' => rbind (body i a) (for_lines l' body)
  end.

Section Auto.
  (** FortranRecordReader('2(F12.6)').read *)
  Variable read_pair : string -> res (Q * Q).
  (** gradient_header.read, lines 23, 50 and 59 *)
  Variable read_gradient : string -> res unit.
  (** the three records of read_header, lines 27-29 *)
  Variable read_int_record : string -> res unit.
  Variable py_float : string -> res Q.

  Definition matrix := nat -> nat -> Q.
  (** m[a, :] = (x, y) *)
  Definition set_row (m : matrix) (a : nat) (xy : Q * Q) : matrix :=
    fun a' b => if a' =? a then (if b =? 0 then fst xy else snd xy) else m a' b.
  Definition el_range : list nat := seq 0 2.
  Definition mode_range : list nat := seq 0 12.

  (** model_auto.py:26-38 *)
  Definition read_header : reader unit :=
    rbind next_line (fun l => rbind (lift (read_int_record l)) (fun _ =>
    rbind next_line (fun l => rbind (lift (read_int_record l)) (fun _ =>
    rbind next_line (fun l => rbind (lift (read_int_record l)) (fun _ =>
    rbind next_line (fun _ => ret tt))))))).
  (** two lines of coefficients, lines 43-44, 51-52, 60-61, 70-71, 173-174 *)
  Definition read_matrix (m : matrix) : reader matrix :=
    for_lines el_range (fun a m => rbind next_line (fun l => rbind (lift (read_pair l)) (fun xy => ret (set_row m a xy)))) m.
  (** model_auto.py:41-44 *)
  Definition fill_in_excitation_energies (m : matrix) : reader matrix := read_matrix m.
  (** model_auto.py:47-53 *)
  Definition fill_in_linear_couplings (c : nat -> matrix) : reader (nat -> matrix) :=
    for_lines mode_range (fun i c => rbind next_line (fun l => rbind (lift (read_gradient l)) (fun _ =>
      rbind (read_matrix (c i)) (fun m => ret (fun i' => if i' =? i then m else c i'))))) c.
  (** model_auto.py:56-62 *)
  Definition fill_in_diagonal_quadratic_couplings (c : nat -> nat -> matrix) : reader (nat -> nat -> matrix) :=
    for_lines mode_range (fun i c => rbind next_line (fun l => rbind (lift (read_gradient l)) (fun _ =>
      rbind (read_matrix (c i i)) (fun m => ret (fun i' j' => if (i' =? i) && (j' =? i) then m else c i' j'))))) c.
  (** model_auto.py:65-77: the pairs i > j, then the transposed lower triangle is added *)
  Definition lower_pairs : list (nat * nat) := flat_map (fun i => map (fun j => (i, j)) (seq 0 i)) mode_range.
  Definition fill_in_offdiagonal_quadratic_couplings (c : nat -> nat -> matrix) : reader (nat -> nat -> matrix) :=
    rbind (for_lines lower_pairs (fun ij c => rbind next_line (fun _ =>
      rbind (read_matrix (c (fst ij) (snd ij))) (fun m => ret (fun i' j' => if (i' =? fst ij) && (j' =? snd ij) then m else c i' j')))) c)
    (fun c => ret (fun i j a b => if i <? j then (c i j a b + c j i a b)%Q else c i j a b)).

  Definition all_range (n : nat) (p : nat -> bool) : bool := forallb p (seq 0 n).
  (** model_auto.py:80-86 *)
  Definition confirm_symmetry_in_surfaces (lin : nat -> matrix) (quad : nat -> nat -> matrix) : res unit :=
    passert (all_range 2 (fun a => all_range 2 (fun b =>
      all_range 12 (fun i => close (lin i a b) (lin i b a)) &&
      all_range 12 (fun i => all_range 12 (fun j => close (quad i j a b) (quad i j b a)))))).
  (** model_auto.py:89-94 *)
  Definition confirm_symmetry_in_modes (quad : nat -> nat -> matrix) : res unit :=
    passert (all_range 12 (fun i => all_range 12 (fun j => all_range 2 (fun a => all_range 2 (fun b => close (quad i j a b) (quad j i a b)))))).

  (** what is returned, model_auto.py:201 *)
  Record auto := mkAuto { nel : nat; nmode : nat; excitation_energies : matrix; frequencies : nat -> Q; linear_couplings : nat -> matrix; quadratic_couplings : nat -> nat -> matrix }.

  (** model_auto.py:130-199 *)
  Definition read_auto : reader auto :=
    rbind next_line (fun _ =>
    rbind read_header (fun _ =>
    rbind next_line (fun _ =>
    rbind (for_lines mode_range (fun _ _ => rbind next_line (fun _ => ret tt)) tt) (fun _ =>
    rbind next_line (fun _ =>
    rbind (for_lines mode_range (fun i w => rbind next_line (fun l => rbind (lift (py_float (before_ "eV" (after_ "cm-1" l)))) (fun x =>
             ret (fun i' => if i' =? i then x else w i')))) (fun _ => 0%Q)) (fun w =>
    rbind next_line (fun _ =>
    rbind (read_matrix (fun _ _ => 0%Q)) (fun e =>
    rbind (fill_in_excitation_energies e) (fun e =>
    rbind next_line (fun _ =>
    rbind (fill_in_linear_couplings (fun _ _ _ => 0%Q)) (fun lin =>
    rbind next_line (fun _ =>
    rbind (fill_in_diagonal_quadratic_couplings (fun _ _ _ _ => 0%Q)) (fun quad =>
    rbind next_line (fun _ =>
    rbind (fill_in_offdiagonal_quadratic_couplings quad) (fun quad =>
    rbind (lift (confirm_symmetry_in_surfaces lin quad)) (fun _ =>
    rbind (lift (confirm_symmetry_in_modes quad)) (fun _ =>
    ret (mkAuto 2 12 e w lin quad)))))))))))))))))).
  (** model_auto.py:97-201; [file]: the contents, if it exists *)
  Definition read_model_auto_file (file : option string) : res auto :=
    match file with
    | None => Raise OSError
    | Some text => match read_auto (lines_of text) with Ok (r, _) => Ok r | Raise e => Raise e end
    end.
End Auto.
