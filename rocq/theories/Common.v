(** Shared conventions: Python exceptions as values, Python dictionaries as
    insertion-ordered association lists, files as a map from path to contents.
    Nothing here models one particular function of /repo; the definitions model
    the Python built-ins used by all of them. *)
From Coq Require Export String Ascii Arith ZArith Lia Bool List.
Export ListNotations.

Global Open Scope string_scope.
Global Open Scope list_scope.
Global Open Scope nat_scope.

(** Python exception classes that occur in /repo/pibronic. *)
Inductive exn :=
| AssertionError | KeyError | ValueError | TypeError | IndexError
| AttributeError | UnboundLocalError | OSError | MemoryError
| ZeroDivisionError | OtherException.

Inductive res (A : Type) :=
| Ok (a : A)
| Raise (e : exn).
Arguments Ok {A} a.
Arguments Raise {A} e.

Definition bind {A B} (x : res A) (f : A -> res B) : res B :=
  match x with Ok a => f a | Raise e => Raise e end.
Notation "'do' x <- a ; b" := (bind a (fun x => b))
  (at level 200, x pattern, a at level 100, b at level 200).

(** [assert b] of Python. *)
Definition passert (b : bool) : res unit :=
  if b then Ok tt else Raise AssertionError.

(** Python [dict]: insertion ordered, [d[k] = v] keeps the position of an
    existing key and appends a new one; [del d[k]] removes it. *)
Section Dict.
  Context {K V : Type}.
  Variable eqb : K -> K -> bool.

  Fixpoint dget (d : list (K * V)) (k : K) : option V :=
    match d with
    | [] => None
    | (k', v) :: d' => if eqb k k' then Some v else dget d' k
    end.

  Definition dmem (d : list (K * V)) (k : K) : bool :=
    match dget d k with Some _ => true | None => false end.

  Fixpoint dset (d : list (K * V)) (k : K) (v : V) : list (K * V) :=
    match d with
    | [] => [(k, v)]
    | (k', v') :: d' => if eqb k k' then (k', v) :: d' else (k', v') :: dset d' k v
    end.

  Fixpoint ddel (d : list (K * V)) (k : K) : list (K * V) :=
    match d with
    | [] => []
    | (k', v') :: d' => if eqb k k' then d' else (k', v') :: ddel d' k
    end.

  (** [d.update(e)] *)
  Definition dupdate (d e : list (K * V)) : list (K * V) :=
    fold_left (fun acc kv => dset acc (fst kv) (snd kv)) e d.

  Definition dkeys (d : list (K * V)) : list K := map fst d.
End Dict.

(** File system: path -> contents. *)
Definition fsys (C : Type) := string -> option C.
Definition fs_write {C} (f : fsys C) (p : string) (c : C) : fsys C :=
  fun q => if String.eqb q p then Some c else f q.

(** Generic "for x in l: state = body(state)" loop with exceptions; the state
    reached when an exception is raised stays visible. *)
Fixpoint for_res {X S} (body : S -> X -> res S) (l : list X) (s : S) : res S :=
  match l with
  | [] => Ok s
  | x :: l' => match body s x with Ok s' => for_res body l' s' | Raise e => Raise e end
  end.
