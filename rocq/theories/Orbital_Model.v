(** Model of the choice of the orbitals from the output of an SCF calculation,
    /repo/pibronic/vibronic/electronic_structure.py:232-268 and 466-647.

    Texts are ASCII.  The orbital energies are rational numbers (no NaN, no infinity, -0.0 is 0.0); their
    ratios may be infinite or not a number.  The answers of the user are a list of lines, after its end
    input() raises EOFError. *)
From Coq Require Import QArith.
From Verif Require Import Common PyStr_Model FileSearch_Model ModelOp_Model FileName_Model.
Local Open Scope string_scope.
Local Open Scope nat_scope.

Definition target_begin : list ascii := list_ascii_of_string "ORBITAL EIGENVALUES (ALPHA)".
Definition target_end : list ascii := list_ascii_of_string "+++++++++++++++++++++++++++++++++++++++++++".
(** mm.read(n): a negative [n] reads to the end *)
Definition mread (m : mmap) (n : Z) : list ascii :=
  if (n <? 0)%Z then skipn (pos m) (data m) else firstn (Z.to_nat n) (skipn (pos m) (data m)).
(** lines 470-489 and 551-573: the lines of the table; [d] is the content of the file *)
Definition orbital_lines (d : list ascii) : res (list string) :=
  match d with
  | [] => Raise ValueError
  | _ =>
      do begin_ <- find_string_in_file (mkMap d 0) target_begin;
      do end_ <- find_string_in_file (mkMap d 0) target_end;
      let past_headers := skip_forward_lines (mkMap d (Z.to_nat begin_)) 4 begin_ in
      let text := string_of_list_ascii (mread (mkMap d (Z.to_nat past_headers)) (end_ - past_headers)) in
      Ok (splitlines (strip text))
  end.

(** the float64 quotients *)
Inductive ratio := Fin (q : Q) | PosInf | NegInf | NotANumber.
Definition divide (a b : Q) : ratio :=
  if (Qeq_bool b 0) then (match (a ?= 0)%Q with Gt => PosInf | Lt => NegInf | Eq => NotANumber end) else Fin (a / b)%Q.
(** a > b *)
Definition above (a b : ratio) : bool :=
  match a, b with
  | NotANumber, _ | _, NotANumber => false
  | Fin x, Fin y => negb (Qle_bool x y)
  | PosInf, PosInf => false
  | PosInf, _ => true
  | _, PosInf => false
  | NegInf, _ => false
  | Fin _, NegInf => true
  end.
(** a == b *)
Definition equal (a b : ratio) : bool :=
  match a, b with Fin x, Fin y => Qeq_bool x y | PosInf, PosInf | NegInf, NegInf => true | _, _ => false end.
(** a is b or a == b for elements of one list *)
Definition same_or_equal (a b : ratio) : bool :=
  match a, b with NotANumber, NotANumber => true | _, _ => equal a b end.

(** pairwise, lines 232-236, and the list diffs *)
Definition ratios (ev : list Q) : list ratio := map (fun e => divide (fst e) (snd e)) (combine ev (tl ev)).
(** max(l) *)
Definition py_max (l : list ratio) : res ratio :=
  match l with [] => Raise ValueError | x :: l' => Ok (fold_left (fun m y => if above y m then y else m) l' x) end.
(** l.index(x) *)
Fixpoint index_by (eq : ratio -> ratio -> bool) (l : list ratio) (x : ratio) : res nat :=
  match l with
  | [] => Raise ValueError
  | y :: l' => if eq y x then Ok 0 else do i <- index_by eq l' x; Ok (S i)
  end.

Section Orbital.
  (** float(s) *)
  Variable py_float : string -> res Q.
  (** list_ev: lines 494 and 581; the fourth word of line.split(maxsplit=5) *)
  Definition energies (lines : list string) : res (list Q) :=
    map_res (fun line => do w <- item (words line) 3; py_float w) lines.
  (** lines 491-513: the guess (-1 if there is none) *)
  Definition guess_dropmo (ev : list Q) : Z :=
    match (do m <- py_max (ratios ev); index_by same_or_equal (ratios ev) m) with
    | Ok i => Z.of_nat i + 1
    | Raise _ => -1
    end%Z.
  (** _guess_NIP_value, lines 576-611: (guess_nip, list_ev) *)
  Definition guess_nip (lines : list string) (k : Z) : Z * list Q :=
    match energies lines with
    | Raise _ => (-1, [])
    | Ok ev =>
        match
          (if Z.of_nat (length ev) <=? k then Raise OtherException
           else do m <- py_max (ratios (skipn (Z.to_nat (k + 1)) ev));
                do i <- index_by equal (ratios ev) m;
                Ok (Z.of_nat (length (ratios ev)) - Z.of_nat i))
        with
        | Ok g => (g, ev)
        | Raise _ => (-1, ev)
        end
    end%Z.

  (** 'y' in s.lower(), line 243 *)
  Definition lower_char (c : ascii) : ascii := let n := nat_of_ascii c in if (65 <=? n) && (n <=? 90) then ascii_of_nat (n + 32) else c.
  Fixpoint lower (s : string) : string := match s with EmptyString => EmptyString | String c s' => String (lower_char c) (lower s') end.
  (** get_yes_no_from_user, lines 239-250 *)
  Definition get_yes_no (input : list string) : res (bool * list string) :=
    match input with [] => Raise OtherException | s :: more => Ok (contains "y" (lower s), more) end.
  (** get_integer_from_user, lines 253-268 *)
  Fixpoint get_integer (input : list string) : res (Z * list string) :=
    match input with
    | [] => Raise OtherException
    | s :: more =>
        match py_int_str s with
        | Ok z => if (0 <=? z)%Z then Ok (z, more) else get_integer more
        | Raise _ => get_integer more
        end
    end.
  (** the loops in lines 530-533 and 642-645; [n] bounds the number of turns *)
  Fixpoint ask_again (n : nat) (guess : Z) (valid : bool) (input : list string) : res (Z * list string) :=
    if valid then Ok (guess, input)
    else match n with
         | O => Raise OtherException
         | S n' =>
             do g <- get_integer input;
             do v <- get_yes_no (snd g);
             ask_again n' (fst g) (fst v) (snd v)
         end.
  (** lines 522-533 and 634-645; every turn reads at least two lines *)
  Definition ask (guess : Z) (input : list string) : res (Z * list string) :=
    if (guess =? -1)%Z then ask_again (length input) guess false input
    else do v <- get_yes_no input; ask_again (length input) guess (fst v) (snd v).

  (** lines 535-546 *)
  Definition dropmo_text (k : Z) : string :=
    if (k =? 1)%Z then "DROPMO=1" else if (1 <? k)%Z then "DROPMO=1-" ++ dec k else "".
  (** _estimate_dropmo, lines 466-546; the list list_ev is unbound if reading it failed *)
  Definition estimate_dropmo (d : list ascii) (input : list string) : res (string * list string) :=
    do lines <- orbital_lines d;
    match energies lines with
    | Raise _ => Raise UnboundLocalError
    | Ok ev => do r <- ask (guess_dropmo ev) input; Ok (dropmo_text (fst r), snd r)
    end.
  (** line 620: int(string_dropmo[-1]) *)
  Definition last_char (s : string) : option ascii := match rev (list_ascii_of_string s) with c :: _ => Some c | [] => None end.
  Definition dropmo_number (s : string) : res Z :=
    match last_char s with None => Ok 0%Z | Some c => py_int_str (String c "") end.
  (** _estimate_NIP, lines 614-647 *)
  Definition estimate_nip (dropmo : string) (d : list ascii) (input : list string) : res (Z * list string) :=
    do lines <- orbital_lines d;
    do k <- dropmo_number dropmo;
    ask (fst (guess_nip lines k)) input.
End Orbital.
