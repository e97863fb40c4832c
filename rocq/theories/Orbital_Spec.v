(** Notions used to state the properties of the choice of the orbitals *)
From Coq Require Import QArith.
From Verif Require Import Common PyStr_Model ModelOp_Spec Json_Spec Julia_Spec Auto_Spec Zmat_Spec Orbital_Model.
Local Open Scope string_scope.
Local Open Scope nat_scope.

(** [r] is the quotient a / b *)
Inductive quot (a b : Q) : ratio -> Prop :=
| q_fin q : ~ (b == 0)%Q -> (q * b == a)%Q -> quot a b (Fin q)
| q_pos : (b == 0)%Q -> (0 < a)%Q -> quot a b PosInf
| q_neg : (b == 0)%Q -> (a < 0)%Q -> quot a b NegInf
| q_nan : (b == 0)%Q -> (a == 0)%Q -> quot a b NotANumber.
(** the i-th gap: the quotient of the i-th and the next energy *)
Definition gap (ev : list Q) (i : nat) (r : ratio) : Prop :=
  exists a b, nth_error ev i = Some a /\ nth_error ev (S i) = Some b /\ quot a b r.
(** a is larger than b *)
Inductive larger : ratio -> ratio -> Prop :=
| l_fin x y : (y < x)%Q -> larger (Fin x) (Fin y)
| l_pos_fin x : larger PosInf (Fin x)
| l_fin_neg x : larger (Fin x) NegInf
| l_pos_neg : larger PosInf NegInf.
(** [r] is a largest gap from [lo] on *)
Definition widest (ev : list Q) (lo : nat) (r : ratio) : Prop :=
  r <> NotANumber /\ (exists i, lo <= i /\ gap ev i r) /\ forall i s, lo <= i -> gap ev i s -> ~ larger s r.
(** [j] is the place of the first gap as large as [r] *)
Definition first_gap (ev : list Q) (r : ratio) (j : nat) : Prop :=
  (exists s, gap ev j s /\ s <> NotANumber /\ ~ larger s r /\ ~ larger r s) /\
  forall i s, i < j -> gap ev i s -> s = NotANumber \/ larger s r \/ larger r s.

(** an answer that counts as yes *)
Definition yes (s : string) : Prop := In "y"%char (chars s) \/ In "Y"%char (chars s).
(** an answer that is a number *)
Definition number (s : string) (k : Z) : Prop := py_int_str s = Ok k /\ (0 <= k)%Z.
(** [talk proposal answers k rest]: the value [k] is agreed on after the answers, [rest] are not used; without a
    proposal the user is asked for one *)
Inductive talk : option Z -> list string -> Z -> list string -> Prop :=
| t_yes k s more : yes s -> talk (Some k) (s :: more) k more
| t_no g s more k rest : ~ yes s -> talk None more k rest -> talk (Some g) (s :: more) k rest
| t_number bad s more g k rest : Forall (fun x => forall z, ~ number x z) bad -> number s g -> talk (Some g) more k rest -> talk None (bad ++ s :: more)%list k rest.
Definition proposal (g : Z) : option Z := if Z.eq_dec g (-1) then None else Some g.
(** the first occurrence of [h] in [text] is at [p] *)
Definition first_place (h text : string) (p : nat) : Prop :=
  (exists u v, text = u ++ h ++ v /\ String.length u = p) /\ forall u v, text = u ++ h ++ v -> p <= String.length u.

Section Rows.
  Variable py_float : string -> res Q.
  (** the fourth word of the row is the energy *)
  Definition row_energy (row : string) (e : Q) : Prop := exists ws w, worded row ws /\ nth_error ws 3 = Some w /\ py_float w = Ok e.
  Definition bad_row (row : string) : Prop := exists ws, worded row ws /\ forall w, nth_error ws 3 = Some w -> exists e, py_float w = Raise e.
End Rows.
(** [g] is the proposed number of dropped orbitals: one more than the place of the first of the widest gaps; -1
    (no proposal) with less than two energies *)
Definition dropmo_guess (ev : list Q) (g : Z) : Prop :=
  (length ev < 2 /\ g = (-1)%Z) \/ (gap ev 0 NotANumber /\ g = 1%Z) \/
  (2 <= length ev /\ ~ gap ev 0 NotANumber /\ exists r j, widest ev 0 r /\ first_gap ev r j /\ g = Z.of_nat (S j)).
(** [g] is the proposed number of states when [k] orbitals are believed to be dropped: the widest gap from k + 1 on
    is looked for, and the energies after the first gap of this size (anywhere) are counted *)
Definition nip_guess (ev : list Q) (k : nat) (g : Z) : Prop :=
  (length ev < k + 3 /\ g = (-1)%Z) \/ (gap ev (k + 1) NotANumber /\ g = (-1)%Z) \/
  (k + 3 <= length ev /\ ~ gap ev (k + 1) NotANumber /\
   exists r j, widest ev (k + 1) r /\ first_gap ev r j /\ g = Z.of_nat (length ev - S j)).
(** the keyword for [k] dropped orbitals *)
Definition dropmo_keyword (k : Z) (s : string) : Prop :=
  (k = 0 /\ s = "")%Z \/ (k = 1 /\ s = "DROPMO=1")%Z \/ ((1 < k)%Z /\ s = "DROPMO=1-" ++ dec k).
(** a file with a table: [start] up to the end of the four header lines, then the rows *)
Definition orbital_heading : string := "ORBITAL EIGENVALUES (ALPHA)".
Definition plus_line : string := "+++++++++++++++++++++++++++++++++++++++++++".
Record table (text pre start : string) (rows : list string) (pad post : string) : Prop := {
  t_text : text = start ++ file_text rows ++ pad ++ post;
  t_start : exists h0 h1 h2 h3, start = pre ++ orbital_heading ++ h0 ++ NL1 ++ h1 ++ NL1 ++ h2 ++ NL1 ++ h3 ++ NL1 /\ Forall (free nl) [h0; h1; h2; h3];
  t_first : first_place orbital_heading text (String.length pre);
  t_rows : Forall unbroken rows;
  t_outer : (exists r rs ws, rows = r :: rs /\ worded r ws /\ ws <> []) /\ (exists rs r ws, rows = (rs ++ [r])%list /\ worded r ws /\ ws <> []);
  t_pad : blanks pad }.
(** the table ends at the mark; or the mark occurs before the table, then it ends with the file *)
Definition closed (text start : string) (rows : list string) (pad post : string) : Prop :=
  ((exists more, post = plus_line ++ more) /\ first_place plus_line text (String.length (start ++ file_text rows ++ pad))) \/
  (post = "" /\ exists p, S p < String.length start /\ first_place plus_line text p).
