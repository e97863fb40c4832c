(** Notions used to state the properties of geometries *)
From Verif Require Import Common Json_Spec Julia_Spec Auto_Spec.
Local Open Scope string_scope.
Local Open Scope nat_scope.

(** a line with its end *)
Definition NL1 : string := String nl "".
Definition ended (s : string) : string := s ++ NL1.
(** no character ends a line (str.splitlines) *)
Definition unbroken (s : string) : Prop := forall c, In c (chars s) -> let n := nat_of_ascii c in ~ (10 <= n <= 13) /\ ~ (28 <= n <= 30).
(** no blank at either end *)
Definition trimmed (s : string) : Prop := (forall c u, s = String c u -> ~ blank c) /\ (forall c u, s = u ++ String c "" -> ~ blank c).
(** a name or a value *)
Definition item_text (s : string) : Prop := free "=" s /\ unbroken s /\ trimmed s.
(** a line " name = value " *)
Definition coord_line (x k v : string) : Prop := exists p1 p2 p3 p4, x = p1 ++ k ++ p2 ++ "=" ++ p3 ++ v ++ p4 /\
  item_text k /\ item_text v /\ Forall (fun p => blanks p /\ unbroken p) [p1; p2; p3; p4].
(** the block of relations: no empty line in it or at its end *)
Definition rel_text (rel : string) : Prop := ~ occurs (NL1 ++ NL1) (rel ++ NL1).
(** [d] maps the name [k] of the list to its last value *)
Definition last_value (kvs : list (string * string)) (k v : string) : Prop := exists a b, kvs = (a ++ (k, v) :: b)%list /\ ~ In k (map fst b).
(** [ws] are the words of [s] *)
Definition plain_word (w : string) : Prop := w <> "" /\ forall c, In c (chars w) -> ~ blank c.
Inductive worded : string -> list string -> Prop :=
| wd_nil b : blanks b -> worded b []
| wd_last b w : blanks b -> plain_word w -> worded (b ++ w) [w]
| wd_cons b w c s ws : blanks b -> plain_word w -> blank c -> worded s ws -> worded (b ++ w ++ String c s) (w :: ws).
(** a line of a geometry: the words, each one followed by a space *)
Definition atom_line (ws : list string) : string := String.concat "" (map (fun w => w ++ " ") ws).
(** the lines that are not empty *)
Definition full_lines (ls : list string) : list string := filter (fun s => negb (String.eqb s "")) ls.
(** the first occurrence of [h] in [pre ++ h ++ post] is the one after [pre] *)
Definition first_after (pre h post : string) : Prop := forall a b, pre ++ h ++ post = a ++ h ++ b -> String.length pre <= String.length a.
(** the coordinates [old] with the values of the list [kvs] *)
Definition updated (old kvs new_ : list (string * string)) : Prop :=
  (forall k v, In (k, v) new_ <-> last_value kvs k v \/ (~ In k (map fst kvs) /\ In (k, v) old)) /\
  NoDup (map fst new_) /\ exists more, map fst new_ = (map fst old ++ more)%list /\ forall k, In k more -> ~ In k (map fst old).
