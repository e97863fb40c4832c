(** Model of the import of MCTDH operator files,
    /repo/pibronic/vibronic/model_op.py:20-421.

    A file is its text (ASCII; decoding is not modelled).  Numbers are rationals:
    [py_float] is float(str) on the words of the file, the rounding of floats is
    not modelled.  A numpy array is a function of the index together with the
    numbers of modes and surfaces.  The names of the entries are matched by the
    library "parse"; here a field {x:d} matches one or more decimal digits (the
    library also accepts a sign, other bases and other case). *)
From Coq Require Import QArith Qabs.
From Verif Require Import Common PyStr_Model FileSearch_Model ModelIO_Model.
Local Open Scope string_scope.
Local Open Scope nat_scope.

(** ---- text ---- *)
(** the ends of lines recognised by str.splitlines() *)
Definition line_end (c : ascii) : bool :=
  let n := nat_of_ascii c in ((10 <=? n) && (n <=? 13)) || ((28 <=? n) && (n <=? 30)).
(** s.splitlines() *)
Fixpoint splitlines (s : string) : list string :=
  match s with
  | EmptyString => []
  | String c s' =>
      if line_end c then
        match s' with
        | String d _ => if Ascii.eqb c "013"%char && Ascii.eqb d "010"%char then splitlines s' else EmptyString :: splitlines s'
        | EmptyString => [EmptyString]
        end
      else match splitlines s' with
           | h :: t => String c h :: t
           | [] => [String c EmptyString]
           end
  end.
(** s.split() *)
Fixpoint words (s : string) : list string :=
  match s with
  | EmptyString => []
  | String c s' =>
      if is_space c then words s'
      else match s' with
           | EmptyString => [String c EmptyString]
           | String d _ =>
               if is_space d then String c EmptyString :: words s'
               else match words s' with
                    | h :: t => String c h :: t
                    | [] => [String c EmptyString]
                    end
           end
  end.
(** s.replace(p, '') *)
Definition remove (p s : string) : string := String.concat "" (split p s).

(** mm.read(n): everything that is left if n is negative or too large *)
Definition mread (m : mmap) (n : Z) : list ascii :=
  let rest := skipn (pos m) (data m) in
  if (n <? 0)%Z then rest else firstn (Z.to_nat n) rest.
(** the common beginning of all the extract functions, e.g. model_op.py:23-37: the
    text between the [k] lines starting with [b] and the first [e] of the file *)
Definition section_text (text b e : string) (k : nat) : res string :=
  let d := list_ascii_of_string text in
  do begin_ <- find_string_in_file (mkMap d 0) (list_ascii_of_string b);
  do end_ <- find_string_in_file (mkMap d 0) (list_ascii_of_string e);
  let m := readlines (mkMap d (Z.to_nat begin_)) k in
  Ok (string_of_list_ascii (mread m (end_ - Z.of_nat (pos m)))).
(** e.g. model_op.py:38 *)
Definition kept_lines (s : string) : list string :=
  filter (fun line => negb (contains "#" line) && negb (String.eqb line "")) (splitlines s).

(** words[-1] *)
Definition last_item (l : list string) : res string := match rev l with x :: _ => Ok x | [] => Raise IndexError end.

Section Numbers.
  Variable py_float : string -> res Q.

  (** model_op.py:48-52 and 85-89: line [a] (from 0) *)
  Definition numbered_line (expected : string) (line : string) : res Q :=
    let w := words line in
    do w0 <- item w 0;
    do _ <- passert (String.eqb w0 expected);
    do wl <- last_item w;
    do _ <- passert (String.eqb wl "ev");
    do w2 <- item w 2;
    py_float w2.
  Fixpoint numbered_lines (name : Z -> string) (i : Z) (lines : list string) : res (list Q) :=
    match lines with
    | [] => Ok []
    | line :: rest =>
        do x <- numbered_line (name i) line;
        do xs <- numbered_lines name (i + 1)%Z rest;
        Ok (x :: xs)
    end.
  (** f"EH_s{a+1:02}_s{a+1:02}" (line 50) and f"w{j+1:02}" (line 87) *)
  Definition energy_name (i : Z) : string := "EH_s" ++ two_digits i ++ "_s" ++ two_digits i.
  Definition frequency_name (i : Z) : string := "w" ++ two_digits i.
  (** model_op.py:20-54; only the diagonal *)
  Definition extract_energies (text : string) : res (list Q) :=
    do s <- section_text text "Electronic Hamitonian" "Electronic transition moments" 3;
    numbered_lines energy_name 1 (kept_lines (strip s)).
  (** model_op.py:57-91 *)
  Definition extract_normal_mode_frequencies (text : string) : res (list Q) :=
    do s <- section_text text "Frequencies" "Zeropoint energy" 2;
    numbered_lines frequency_name 1 (kept_lines (strip s)).

  (** ---- coupling arrays: modes, surface, surface ---- *)
  Definition coup := list nat -> nat -> nat -> Q.
  Definition zeros : coup := fun _ _ _ => 0%Q.
  Definition set_entry (t : coup) (m : list nat) (a b : nat) (v : Q) : coup :=
    fun m' a' b' => if (if list_eq_dec Nat.eq_dec m' m then true else false) && (a' =? a) && (b' =? b) then v else t m' a' b'.
  (** an index of an axis of length n; -1 is the last one *)
  Definition norm_index (n : nat) (i : Z) : res nat :=
    let j := (if i <? 0 then i + Z.of_nat n else i)%Z in
    if ((0 <=? j) && (j <? Z.of_nat n))%Z then Ok (Z.to_nat j) else Raise IndexError.
  Fixpoint norm_indices (n : nat) (l : list Z) : res (list nat) :=
    match l with
    | [] => Ok []
    | i :: l' => do j <- norm_index n i; do js <- norm_indices n l'; Ok (j :: js)
    end.

  (** decimal digits at the beginning of s, and what follows *)
  Fixpoint span_digits (s : string) : string * string :=
    match s with
    | EmptyString => (EmptyString, EmptyString)
    | String c s' =>
        match digit c with
        | Some _ => let (d, r) := span_digits s' in (String c d, r)
        | None => (EmptyString, s)
        end
    end.
  Fixpoint drop_prefix (p s : string) : option string :=
    match p with
    | EmptyString => Some s
    | String c p' => match s with String d s' => if Ascii.eqb c d then drop_prefix p' s' else None | EmptyString => None end
    end.
  (** parse.compile("lit0{:d}lit1{:d}...{:d}").parse(s): the numbers *)
  Fixpoint parse_name (lits : list string) (s : string) : option (list Z) :=
    match lits with
    | [] => match s with EmptyString => Some [] | _ => None end
    | lit :: rest =>
        match drop_prefix lit s with
        | None => None
        | Some s1 =>
            let (d, s2) := span_digits s1 in
            match digits d with
            | Some z => match parse_name rest s2 with Some zs => Some (z :: zs) | None => None end
            | None => None
            end
        end
    end.

  (** what an entry stands for: modes and surfaces, counted from 1 *)
  Definition place := list Z -> option (list Z * Z * Z).
  Definition place_C1 : place := fun r => match r with [a1; a2; j] => Some ([j], a1, a2) | _ => None end.          (* line 119 *)
  Definition place_C2 : place := fun r => match r with [a1; a2; j1; j2] => Some ([j1; j2], a1, a2) | _ => None end. (* line 154 *)
  Definition place_C3 : place := fun r => match r with [a1; a2; j] => Some ([j; j; j], a1, a2) | _ => None end.     (* line 189 *)
  Definition place_B3 : place := fun r => match r with [a1; a2; j1; j2] => Some ([j1; j2; j2], a1, a2) | _ => None end. (* line 225 *)
  Definition place_C4 : place := fun r => match r with [a1; a2; j] => Some ([j; j; j; j], a1, a2) | _ => None end.  (* line 262 *)
  Definition place_B4 : place := fun r => match r with [a1; a2; j1; j2] => Some ([j1; j2; j2; j2], a1, a2) | _ => None end. (* line 301 *)
  Definition place_A4 : place := fun r => match r with [a1; a2; j1; j2] => Some ([j1; j1; j2; j2], a1, a2) | _ => None end. (* line 306 *)
  (** the formats given to parse.compile (lines 115, 150, 185, 220, 258, 294, 297) *)
  Definition lits_C1 := ["C1_s"; "_s"; "_v"].
  Definition lits_C2 := ["C2_s"; "s"; "_v"; "v"].
  Definition lits_C3 := ["C3_s"; "_s"; "_v"].
  Definition lits_B3 := ["B3_s"; "s"; "_v"; "v"].
  Definition lits_C4 := ["C4_s"; "_s"; "_v"].
  Definition lits_B4 := ["B4_s"; "s"; "_v"; "v"].
  Definition lits_A4 := ["A4_s"; "s"; "_v"; "v"].

  (** e.g. model_op.py:117-120, one line; N modes and A surfaces *)
  Definition store (N A : nat) (lits : list string) (pl : place) (t : coup) (line : list string) : res coup :=
    do name <- item line 0;
    match (match parse_name lits name with Some r => pl r | None => None end) with
    | None => Raise TypeError
    | Some (m, a1, a2) =>
        do v <- item line 1;
        do m' <- norm_indices N (map (fun j => j - 1)%Z m);
        do a <- norm_index A (a1 - 1);
        do b <- norm_index A (a2 - 1);
        do x <- py_float v;
        Ok (set_entry t m' a b x)
    end.
  Fixpoint store_all (N A : nat) (lits : list string) (pl : place) (t : coup) (lines : list (list string)) : res coup :=
    match lines with
    | [] => Ok t
    | l :: rest => do t' <- store N A lits pl t l; store_all N A lits pl t' rest
    end.
  (** e.g. model_op.py:112-113 *)
  Definition split_lines (s : string) : list (list string) :=
    map words (kept_lines (remove ", ev" (remove "=" (strip s)))).
  (** model_op.py:94-122 *)
  Definition extract_linear_couplings (text : string) (N A : nat) (t : coup) : res coup :=
    do s <- section_text text "Linear Coupling Constants" "Diagonal Quadratic Coupling Constants" 2;
    store_all N A lits_C1 place_C1 t (split_lines s).
  (** a section that may be missing: the exception is caught (e.g. lines 127-136) *)
  Definition optional_section (text b e : string) (t : coup) (f : string -> res coup) : res coup :=
    match section_text text b e 2 with
    | Ok s => f s
    | Raise _ => Ok t
    end.
  (** model_op.py:125-157 *)
  Definition extract_quadratic_couplings (text : string) (N A : nat) (t : coup) : res coup :=
    optional_section text "Diagonal Quadratic Coupling Constants" "Cubic Coupling Constants" t
      (fun s => store_all N A lits_C2 place_C2 t (split_lines s)).
  (** model_op.py:160-192 *)
  Definition extract_cubic_couplings (text : string) (N A : nat) (t : coup) : res coup :=
    optional_section text "Cubic Coupling Constants" "Quartic Coupling Constants" t
      (fun s => store_all N A lits_C3 place_C3 t (split_lines s)).
  (** model_op.py:195-228 *)
  Definition extract_bicubic_couplings (text : string) (N A : nat) (t : coup) : res coup :=
    optional_section text "Bi-Cubic Constants" "Bi-Quartic Constants" t
      (fun s => store_all N A lits_B3 place_B3 t (split_lines s)).
  (** model_op.py:231-265 *)
  Definition extract_quartic_couplings (text : string) (N A : nat) (t : coup) : res coup :=
    optional_section text "Quartic Coupling Constants" "Bi-Cubic Constants" t
      (fun s => store_all N A lits_C4 place_C4 t (split_lines s)).
  (** the loops over filtered lines, lines 293-307; the filter is lazy *)
  Fixpoint store_only (pre : string) (N A : nat) (lits : list string) (pl : place) (t : coup) (lines : list (list string)) : res coup :=
    match lines with
    | [] => Ok t
    | l :: rest =>
        do name <- item l 0;
        if String.prefix pre name then do t' <- store N A lits pl t l; store_only pre N A lits pl t' rest
        else store_only pre N A lits pl t rest
    end.
  (** model_op.py:268-309 *)
  Definition extract_biquartic_couplings (text : string) (N A : nat) (t : coup) : res coup :=
    optional_section text "Bi-Quartic Constants" "end-parameter-section" t
      (fun s =>
         do t1 <- store_only "B4" N A lits_B4 place_B4 t (split_lines s);
         store_only "A4" N A lits_A4 place_A4 t1 (split_lines s)).

  (** the numbers read from the file, model_op.py:329-368 *)
  Record listing := mkListing { l_w : list Q; l_E : list Q; l_1 : coup; l_2 : coup; l_3 : coup; l_4 : coup }.
  Definition read_listing (file : option string) : res listing :=
    match file with
    | None => Raise OSError                (* verify_file_exists: FileNotFoundError *)
    | Some EmptyString => Raise ValueError (* an empty file cannot be mapped *)
    | Some text =>
        do w <- extract_normal_mode_frequencies text;
        do e <- extract_energies text;
        let N := length w in
        let A := length e in
        do c1 <- extract_linear_couplings text N A zeros;
        do c2 <- extract_quadratic_couplings text N A zeros;
        do c3 <- extract_cubic_couplings text N A zeros;
        do c4 <- extract_quartic_couplings text N A zeros;
        do c3' <- extract_bicubic_couplings text N A c3;
        do c4' <- extract_biquartic_couplings text N A c4;
        Ok (mkListing w e c1 c2 c3' c4')
    end.
End Numbers.

(** ---- completion, model_op.py:370-391 ---- *)
(** np.tril(x, k=-1).T: tril acts on the last two axes, .T reverses all axes *)
Definition lower_transposed (x : list nat -> Q) (m : list nat) : Q :=
  match m with
  | i :: j :: _ => if i <? j then x (rev m) else 0%Q
  | _ => 0%Q
  end.
(** t[..., a, b] += x *)
Definition add_block (t : coup) (a b : nat) (x : list nat -> Q) : coup :=
  fun m a' b' => if (a' =? a) && (b' =? b) then (t m a' b' + x m)%Q else t m a' b'.
(** t[..., a, b] /= 2. *)
Definition halve_block (t : coup) (a b : nat) : coup :=
  fun m a' b' => if (a' =? a) && (b' =? b) then (t m a' b' / 2)%Q else t m a' b'.
(** one round of the loop of lines 377-384 for one array *)
Definition complete_step (t : coup) (ab : nat * nat) : coup :=
  let (a, b) := ab in
  let t1 := add_block t a b (lower_transposed (fun m => t m a b)) in
  add_block t1 a b (fun m => t1 m b a).
(** it.product(States, States) *)
Definition pairs (A : nat) : list (nat * nat) := list_prod (seq 0 A) (seq 0 A).
(** lines 377-384 and 389-391: after the first loop b is the last surface *)
Definition complete_higher (A : nat) (t : coup) : coup :=
  let t1 := fold_left complete_step (pairs A) t in
  fold_left (fun t a => halve_block t a (A - 1)) (seq 0 A) t1.
(** lines 374 and 388 *)
Definition complete_linear (A : nat) (t : coup) : coup :=
  let t1 : coup := fun m a b => (t m a b + t m b a)%Q in
  fold_left (fun t a => halve_block t a a) (seq 0 A) t1.

(** ---- checks, model_op.py:394-405 ---- *)
(** np.allclose on elements, default tolerances *)
Definition close (x y : Q) : bool := Qle_bool (Qabs (x - y)) ((1 # 100000000) + (1 # 100000) * Qabs y).
Fixpoint tuples (N k : nat) : list (list nat) :=
  match k with
  | O => [[]]
  | S k' => flat_map (fun i => map (cons i) (tuples N k')) (seq 0 N)
  end.
Definition all_entries (N A k : nat) (f : list nat -> nat -> nat -> bool) : bool :=
  forallb (fun m => forallb (fun ab => f m (fst ab) (snd ab)) (pairs A)) (tuples N k).
Definition surfaces_ok (N A k : nat) (t : coup) : bool := all_entries N A k (fun m a b => close (t m a b) (t m b a)).
(** the last two modes exchanged *)
Definition swap_last (m : list nat) : list nat :=
  match rev m with
  | x :: y :: r => rev (y :: x :: r)
  | _ => m
  end.
Definition modes_ok (N A k : nat) (t : coup) : bool := all_entries N A k (fun m a b => close (t m a b) (t (swap_last m) a b)).
Definition energy_matrix (e : list Q) (a b : nat) : Q := if a =? b then nth a e 0%Q else 0%Q.

(** ---- result, model_op.py:408-421: entries that are zero everywhere are dropped ---- *)
Inductive opval := OInt (n : nat) | OVec (w : list Q) | OMat (e : nat -> nat -> Q) | OCoup (k : nat) (t : coup).
Definition is_zero (q : Q) : bool := Qeq_bool q 0.
Definition all_zero (N A : nat) (v : opval) : bool :=
  match v with
  | OInt n => n =? 0
  | OVec w => forallb is_zero w
  | OMat e => forallb (fun ab => is_zero (e (fst ab) (snd ab))) (pairs A)
  | OCoup k t => all_entries N A k (fun m a b => is_zero (t m a b))
  end.
Definition complete (l : listing) : res (list (vmk * opval)) :=
  let N := length (l_w l) in
  let A := length (l_E l) in
  let e := energy_matrix (l_E l) in
  let t1 := complete_linear A (l_1 l) in
  let t2 := complete_higher A (l_2 l) in
  let t3 := complete_higher A (l_3 l) in
  let t4 := complete_higher A (l_4 l) in
  do _ <- passert (forallb (fun ab => close (e (fst ab) (snd ab)) (e (snd ab) (fst ab))) (pairs A));
  do _ <- passert (surfaces_ok N A 1 t1);
  do _ <- passert (surfaces_ok N A 2 t2);
  do _ <- passert (surfaces_ok N A 3 t3);
  do _ <- passert (surfaces_ok N A 4 t4);
  do _ <- passert (modes_ok N A 2 t2);
  do _ <- passert (modes_ok N A 3 t3);
  do _ <- passert (modes_ok N A 4 t4);
  Ok (filter (fun kv => negb (all_zero N A (snd kv)))
        [(N_, OInt N); (A_, OInt A); (E_, OMat e); (w_, OVec (l_w l)); (G1_, OCoup 1 t1); (G2_, OCoup 2 t2); (G3_, OCoup 3 t3); (G4_, OCoup 4 t4)]).
(** model_op.py:312-421 *)
Definition read_model_op_file (py_float : string -> res Q) (file : option string) : res (list (vmk * opval)) :=
  do l <- read_listing py_float file;
  complete l.
