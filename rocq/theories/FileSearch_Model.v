(** Model of the navigation in memory-mapped output files:
    /repo/pibronic/helper.py:22-78 and the copies in
    /repo/pibronic/vibronic/electronic_structure.py:114-159, on top of mmap.find,
    mmap.rfind and mmap.readline (CPython 3.6, Modules/mmapmodule.c).

    A file is its list of bytes together with the current position.  Targets are
    given by their bytes (str.encode is not modelled). *)
From Verif Require Import Common.

Record mmap := mkMap { data : list ascii; pos : nat }.
Definition msize (m : mmap) : Z := Z.of_nat (length (data m)).

Fixpoint starts_with (sub l : list ascii) : bool :=
  match sub, l with
  | [], _ => true
  | a :: sub', b :: l' => Ascii.eqb a b && starts_with sub' l'
  | _ :: _, [] => false
  end.
(** memcmp at position p *)
Definition match_at (sub d : list ascii) (p : nat) : bool := starts_with sub (skipn p d).

(** mmap_gfind: negative bounds count from the end, both are clamped *)
Definition clamp (size i : Z) : nat :=
  let i := if (i <? 0)%Z then (i + size)%Z else i in
  Z.to_nat (if (i <? 0)%Z then 0%Z else if (size <? i)%Z then size else i).
(** the positions at which [sub] fits between the bounds, in increasing order *)
Definition candidates (m : mmap) (len : nat) (start end_ : Z) : list nat :=
  let s := clamp (msize m) start in
  let e := clamp (msize m) end_ in
  seq s (e + 1 - (s + len)).
Definition first_match (sub : list ascii) (m : mmap) (l : list nat) : Z :=
  match List.find (match_at sub (data m)) l with Some p => Z.of_nat p | None => (-1)%Z end.
(** mm.find(sub, start, end) *)
Definition mfind (m : mmap) (sub : list ascii) (start end_ : Z) : Z :=
  first_match sub m (candidates m (length sub) start end_).
(** mm.rfind(sub, start, end) *)
Definition mrfind (m : mmap) (sub : list ascii) (start end_ : Z) : Z :=
  first_match sub m (rev (candidates m (length sub) start end_)).

Definition newline : list ascii := [ascii_of_nat 10].

(** mm.readline(): moves behind the next newline, or to the end *)
Definition readline (m : mmap) : mmap :=
  let i := mfind m newline (Z.of_nat (pos m)) (msize m) in
  mkMap (data m) (if (i <? 0)%Z then length (data m) else S (Z.to_nat i)).
(** helper.py:22-25 *)
Fixpoint readlines (m : mmap) (n : nat) : mmap :=
  match n with
  | O => m
  | S n' => readlines (readline m) n'
  end.

(** helper.py:28-39; electronic_structure.py:114-125.  Without bounds,
    the search starts at the current position *)
Definition find_string_in_file (m : mmap) (target : list ascii) : res Z :=
  let location := mfind m target (Z.of_nat (pos m)) (msize m) in
  if (location =? -1)%Z then Raise OtherException else Ok location.
(** helper.py:42-52; electronic_structure.py:128-138 *)
Definition rfind_string_in_file (m : mmap) (target : list ascii) : res Z :=
  let location := mrfind m target (Z.of_nat (pos m)) (msize m) in
  if (location =? -1)%Z then Raise OtherException else Ok location.

(** helper.py:55-65; electronic_structure.py:141-149 *)
Fixpoint skip_back_lines (m : mmap) (n : nat) (start : Z) : Z :=
  match n with
  | O => start
  | S n' =>
      let t := mrfind m newline 0 start in
      if (t <? 0)%Z then start else skip_back_lines m n' t
  end.
(** helper.py:68-78; electronic_structure.py:152-160 *)
Fixpoint skip_forward_lines (m : mmap) (n : nat) (start : Z) : Z :=
  match n with
  | O => start
  | S n' =>
      let t := mfind m newline (start + 1) (msize m) in
      if (t =? -1)%Z then start else skip_forward_lines m n' t
  end.
