(** What a .op file looks like, used to state property C51: a preamble and eleven
    parts, each starting with a title line.  The layout is the one of
    /repo/examples/*/input_mctdh/*.op. *)
From Coq Require Import QArith.
From Verif Require Import Common PyStr_Model PyStr_Proofs.
Local Open Scope string_scope.
Local Open Scope nat_scope.
Local Open Scope list_scope.

(** lines, each followed by a newline *)
Fixpoint file_text (lines : list string) : string :=
  match lines with
  | [] => EmptyString
  | x :: l => (x ++ String "010" (file_text l))%string
  end.

Definition markers : list string :=
  ["Frequencies"; "Zeropoint energy"; "Electronic Hamitonian"; "Electronic transition moments"; "Linear Coupling Constants";
   "Diagonal Quadratic Coupling Constants"; "Cubic Coupling Constants"; "Quartic Coupling Constants"; "Bi-Cubic Constants";
   "Bi-Quartic Constants"; "end-parameter-section"].
(** printable characters and tabs *)
Definition plain (c : ascii) : bool := (32 <=? nat_of_ascii c) || (nat_of_ascii c =? 9).
Definition blank (c : ascii) : bool := (nat_of_ascii c =? 32) || (nat_of_ascii c =? 9).
Definition hash (c : ascii) : bool := Ascii.eqb c "#" || Ascii.eqb c " ".
Definition after_title (c : ascii) : bool := Ascii.eqb c " " || Ascii.eqb c "." || Ascii.eqb c "-" || is_digit c.
Definition numeral (c : ascii) : bool := is_digit c || existsb (Ascii.eqb c) ["+"; "-"; "."; "e"; "E"; "d"; "D"]%char.
(** a line that is not mistaken for a title *)
Definition clean (s : string) : Prop :=
  all_chars plain s = true /\ forall m, In m markers -> ~ exists a b, s = (a ++ m ++ b)%string.

(** a title line is [t_before] title [t_after] *)
Record title := mkTitle { t_before : string; t_after : string }.
Definition title_line (t : title) (m : string) : string := (t_before t ++ m ++ t_after t)%string.
Definition title_ok (t : title) : Prop :=
  (t_before t = "" \/ exists s, t_before t = String "#" s) /\
  all_chars hash (t_before t) = true /\ all_chars after_title (t_after t) = true.

(** the lines of a part; a row is: name, blanks, =, blanks, number, blanks, ", ev", blanks *)
Inductive dline (X : Type) :=
| Blank
| Comment (c : string)
| Row (x : X) (v : string) (b1 b2 b3 b4 : string).
Arguments Blank {X}.
Arguments Comment {X}.
Arguments Row {X}.
Definition show {X} (name : X -> string) (l : dline X) : string :=
  match l with
  | Blank => ""
  | Comment c => String "#" c
  | Row x v b1 b2 b3 b4 => (name x ++ b1 ++ "=" ++ b2 ++ v ++ b3 ++ ", ev" ++ b4)%string
  end.
Definition blanks (b : string) : Prop := b <> "" /\ all_chars blank b = true.
Definition dline_ok {X} (l : dline X) : Prop :=
  match l with
  | Blank => True
  | Comment c => clean (String "#" c)
  | Row _ v b1 b2 b3 b4 => v <> "" /\ all_chars numeral v = true /\ blanks b1 /\ blanks b2 /\ blanks b3 /\ all_chars blank b4 = true
  end.
(** the rows of a part *)
Fixpoint rows {X} (l : list (dline X)) : list (X * string) :=
  match l with
  | [] => []
  | Row x v _ _ _ _ :: l' => (x, v) :: rows l'
  | _ :: l' => rows l'
  end.

(** names; surfaces a, b and modes i, j are counted from 0 here and from 1 in the file *)
Definition nr (i : nat) : string := two_digits (Z.of_nat i + 1).
Definition name_w (j : nat) : string := ("w" ++ nr j)%string.
Definition name_E (a : nat) : string := ("EH_s" ++ nr a ++ "_s" ++ nr a)%string.
Definition name_one (k : string) (e : nat * nat * nat) : string :=
  let '(a, b, j) := e in (k ++ "_s" ++ nr a ++ "_s" ++ nr b ++ "_v" ++ nr j)%string.
Definition name_two (k : string) (e : nat * nat * nat * nat) : string :=
  let '(a, b, i, j) := e in (k ++ "_s" ++ nr a ++ "s" ++ nr b ++ "_v" ++ nr i ++ "v" ++ nr j)%string.
(** the last part has two kinds of rows *)
Inductive quartic := B4 (e : nat * nat * nat * nat) | A4 (e : nat * nat * nat * nat).
Definition name_quartic (q : quartic) : string := match q with B4 e => name_two "B4" e | A4 e => name_two "A4" e end.

Record opdoc := mkDoc {
  d_pre : list string;
  h_w : title; u_w : string; d_w : list (dline nat);
  h_z : title; d_z : list string;
  h_E : title; u_E : string; u_E' : string; d_E : list (dline nat);
  h_t : title; d_t : list string;
  h_1 : title; u_1 : string; d_1 : list (dline (nat * nat * nat));
  h_2 : title; u_2 : string; d_2 : list (dline (nat * nat * nat * nat));
  h_3 : title; u_3 : string; d_3 : list (dline (nat * nat * nat));
  h_4 : title; u_4 : string; d_4 : list (dline (nat * nat * nat));
  h_b3 : title; u_b3 : string; d_b3 : list (dline (nat * nat * nat * nat));
  h_b4 : title; u_b4 : string; d_b4 : list (dline quartic);
  h_end : title; d_post : list string }.

(** the parts: title, marker, the lines that follow *)
Definition parts (d : opdoc) : list (title * string * list string) :=
  [(h_w d, "Frequencies", u_w d :: map (show name_w) (d_w d));
   (h_z d, "Zeropoint energy", d_z d);
   (h_E d, "Electronic Hamitonian", u_E d :: u_E' d :: map (show name_E) (d_E d));
   (h_t d, "Electronic transition moments", d_t d);
   (h_1 d, "Linear Coupling Constants", u_1 d :: map (show (name_one "C1")) (d_1 d));
   (h_2 d, "Diagonal Quadratic Coupling Constants", u_2 d :: map (show (name_two "C2")) (d_2 d));
   (h_3 d, "Cubic Coupling Constants", u_3 d :: map (show (name_one "C3")) (d_3 d));
   (h_4 d, "Quartic Coupling Constants", u_4 d :: map (show (name_one "C4")) (d_4 d));
   (h_b3 d, "Bi-Cubic Constants", u_b3 d :: map (show (name_two "B3")) (d_b3 d));
   (h_b4 d, "Bi-Quartic Constants", u_b4 d :: map (show name_quartic) (d_b4 d));
   (h_end d, "end-parameter-section", d_post d)].
Definition part_lines (p : title * string * list string) : list string :=
  let '(t, m, l) := p in title_line t m :: l.
Definition op_text (d : opdoc) : string := file_text (d_pre d ++ flat_map part_lines (parts d)).

(** N modes, A surfaces *)
Definition n_modes (d : opdoc) : nat := length (rows (d_w d)).
Definition n_surfaces (d : opdoc) : nat := length (rows (d_E d)).
Definition in_range1 (d : opdoc) (e : nat * nat * nat) : Prop :=
  let '(a, b, j) := e in a < n_surfaces d /\ b < n_surfaces d /\ j < n_modes d.
Definition in_range2 (d : opdoc) (e : nat * nat * nat * nat) : Prop :=
  let '(a, b, i, j) := e in a < n_surfaces d /\ b < n_surfaces d /\ i < n_modes d /\ j < n_modes d.
Definition quartic_key (q : quartic) := match q with B4 e => e | A4 e => e end.
Record doc_ok (d : opdoc) : Prop := {
  ok_free : Forall clean (d_pre d ++ d_z d ++ d_t d ++ [u_w d; u_E d; u_E' d; u_1 d; u_2 d; u_3 d; u_4 d; u_b3 d; u_b4 d]);
  ok_post : Forall (fun s => all_chars plain s = true) (d_post d);
  ok_titles : Forall title_ok [h_w d; h_z d; h_E d; h_t d; h_1 d; h_2 d; h_3 d; h_4 d; h_b3 d; h_b4 d; h_end d];
  ok_w : Forall dline_ok (d_w d);
  ok_E : Forall dline_ok (d_E d);
  ok_1 : Forall dline_ok (d_1 d);
  ok_2 : Forall dline_ok (d_2 d);
  ok_3 : Forall dline_ok (d_3 d);
  ok_4 : Forall dline_ok (d_4 d);
  ok_b3 : Forall dline_ok (d_b3 d);
  ok_b4 : Forall dline_ok (d_b4 d);
  modes_in_order : map fst (rows (d_w d)) = seq 0 (n_modes d);
  surfaces_in_order : map fst (rows (d_E d)) = seq 0 (n_surfaces d);
  range_1 : Forall (fun r => in_range1 d (fst r)) (rows (d_1 d));
  range_2 : Forall (fun r => in_range2 d (fst r)) (rows (d_2 d));
  range_3 : Forall (fun r => in_range1 d (fst r)) (rows (d_3 d));
  range_4 : Forall (fun r => in_range1 d (fst r)) (rows (d_4 d));
  range_b3 : Forall (fun r => in_range2 d (fst r)) (rows (d_b3 d));
  range_b4 : Forall (fun r => in_range2 d (quartic_key (fst r))) (rows (d_b4 d)) }.

(** the numbers in the file *)
Definition numerals (d : opdoc) : list string :=
  map snd (rows (d_w d)) ++ map snd (rows (d_E d)) ++ map snd (rows (d_1 d)) ++ map snd (rows (d_2 d)) ++ map snd (rows (d_3 d)) ++
  map snd (rows (d_4 d)) ++ map snd (rows (d_b3 d)) ++ map snd (rows (d_b4 d)).

(** the coefficients: modes, surfaces, value *)
Definition entry : Type := list nat * nat * nat * Q.
Definition entries_1 (num : string -> Q) (d : opdoc) : list entry := map (fun '(a, b, j, v) => ([j], a, b, num v)) (rows (d_1 d)).
Definition entries_2 (num : string -> Q) (d : opdoc) : list entry := map (fun '(a, b, i, j, v) => ([i; j], a, b, num v)) (rows (d_2 d)).
Definition entries_3 (num : string -> Q) (d : opdoc) : list entry :=
  map (fun '(a, b, j, v) => ([j; j; j], a, b, num v)) (rows (d_3 d)) ++
  map (fun '(a, b, i, j, v) => ([i; j; j], a, b, num v)) (rows (d_b3 d)).
Definition entries_4 (num : string -> Q) (d : opdoc) : list entry :=
  map (fun '(a, b, j, v) => ([j; j; j; j], a, b, num v)) (rows (d_4 d)) ++
  flat_map (fun '(q, v) => match q with B4 (a, b, i, j) => [([i; j; j; j], a, b, num v)] | A4 _ => [] end) (rows (d_b4 d)) ++
  flat_map (fun '(q, v) => match q with A4 (a, b, i, j) => [([i; i; j; j], a, b, num v)] | B4 _ => [] end) (rows (d_b4 d)).
(** the value listed last for the modes m and the surfaces a, b; 0 if there is none *)
Definition entry_for (m : list nat) (a b : nat) (e : entry) : bool :=
  let '(m', a', b', _) := e in (if list_eq_dec Nat.eq_dec m m' then true else false) && (a =? a') && (b =? b').
Definition listed (es : list entry) (m : list nat) (a b : nat) : Q :=
  match find (entry_for m a b) (rev es) with
  | Some (_, _, _, q) => q
  | None => 0%Q
  end.
