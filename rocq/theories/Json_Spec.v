(** Notions used to state the properties of the JSON exchange, independent of
    the writer and the reader. *)
From Verif Require Import Common Json_Model.
Local Open Scope string_scope.
Local Open Scope nat_scope.

Definition chars (s : string) : list ascii := list_ascii_of_string s.
Definition digit_chars (s : string) : Prop := forall c, In c (chars s) -> 48 <= nat_of_ascii c <= 57.

(** the texts repr() gives to floats: -?(0|[1-9]d* )(.d+)?([eE][+-]?d+)? with at
    least one of the last two groups, or a name *)
Definition int_text (s : string) : Prop :=
  s = "0" \/ exists c d, s = String c d /\ 49 <= nat_of_ascii c <= 57 /\ digit_chars d.
Definition frac_text (s : string) : Prop := s = "" \/ exists d, s = "." ++ d /\ d <> "" /\ digit_chars d.
Definition exp_text (s : string) : Prop :=
  s = "" \/ exists e g d, s = e ++ g ++ d /\ (e = "e" \/ e = "E") /\ (g = "" \/ g = "+" \/ g = "-") /\ d <> "" /\ digit_chars d.
Definition float_text (t : string) : Prop :=
  t = "NaN" \/ t = "Infinity" \/ t = "-Infinity" \/
  exists sg ip fp ep, t = sg ++ ip ++ fp ++ ep /\ (sg = "" \/ sg = "-") /\ int_text ip /\ frac_text fp /\ exp_text ep /\
                      (fp <> "" \/ ep <> "").

(** a predicate on the strings, the floats and the key lists inside a value *)
Section Every.
  Variables (str flt : string -> Prop) (keys : list string -> Prop).
  Fixpoint every (v : json) : Prop :=
    match v with
    | JNull | JBool _ | JInt _ => True
    | JFloat t => flt t
    | JStr s => str s
    | JArr l => (fix all (l : list json) := match l with [] => True | x :: l' => every x /\ all l' end) l
    | JObj l => keys (map fst l) /\
                (fix all (l : list (string * json)) := match l with [] => True | (k, x) :: l' => str k /\ every x /\ all l' end) l
    end.
  (** some string, key inside the value satisfies [str] *)
  Fixpoint some (v : json) : Prop :=
    match v with
    | JNull | JBool _ | JInt _ | JFloat _ => False
    | JStr s => str s
    | JArr l => (fix any (l : list json) := match l with [] => False | x :: l' => some x \/ any l' end) l
    | JObj l => (fix any (l : list (string * json)) := match l with [] => False | (k, x) :: l' => str k \/ some x \/ any l' end) l
    end.
End Every.

(** every float inside is a float *)
Definition valid (v : json) : Prop := every (fun _ => True) float_text (fun _ => True) v.
(** dictionaries have every key once *)
Definition distinct (v : json) : Prop := every (fun _ => True) (fun _ => True) (@NoDup string) v.
(** the character c occurs in no text *)
Definition without (c : ascii) (v : json) : Prop := every (fun s => ~ In c (chars s)) (fun _ => True) (fun _ => True) v.

(** apply f to every text inside a value *)
Fixpoint on_texts (f : string -> string) (v : json) : json :=
  match v with
  | JNull | JBool _ | JInt _ | JFloat _ => v
  | JStr s => JStr (f s)
  | JArr l => JArr (map (on_texts f) l)
  | JObj l => JObj (map (fun kv => (f (fst kv), on_texts f (snd kv))) l)
  end.
(** the text t is s with every a replaced by b *)
Definition replaced (a b : ascii) (s t : string) : Prop :=
  Forall2 (fun x y => (x = a /\ y = b) \/ (x <> a /\ y = x)) (chars s) (chars t).
