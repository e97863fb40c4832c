(** Python string built-ins used by the modelled code: [int(str)], [float(str)],
    ["{:d}"], ["{:.2f}"], [str.split], [in], [str.replace], [os.path.join].
    Strings are ASCII. *)
From Coq Require Export DecimalString QArith.
From Coq Require Import DecimalN.
From Verif Require Import Common.
Local Open Scope nat_scope.

(** characters removed by str.strip() and skipped by int() / float() *)
Definition is_space (c : ascii) : bool :=
  let n := nat_of_ascii c in
  ((9 <=? n) && (n <=? 13)) || ((28 <=? n) && (n <=? 32)).

Definition digit (c : ascii) : option Z :=
  let n := nat_of_ascii c in
  if (48 <=? n) && (n <=? 57) then Some (Z.of_nat n - 48)%Z else None.

Fixpoint lstrip (s : string) : string :=
  match s with
  | EmptyString => EmptyString
  | String c s' => if is_space c then lstrip s' else s
  end.

Fixpoint rstrip (s : string) : string :=
  match s with
  | EmptyString => EmptyString
  | String c s' =>
      match rstrip s' with
      | EmptyString => if is_space c then EmptyString else String c EmptyString
      | r => String c r
      end
  end.

Definition strip (s : string) : string := rstrip (lstrip s).

(** digits with single underscores between them (Python 3.6); [acc] is the value
    of the digits read so far *)
Fixpoint digits_after (acc : Z) (s : string) : option Z :=
  match s with
  | EmptyString => Some acc
  | String c s' =>
      match digit c with
      | Some d => digits_after (10 * acc + d) s'
      | None =>
          if Ascii.eqb c "_" then
            match s' with
            | String c' s'' =>
                match digit c' with
                | Some d => digits_after (10 * acc + d) s''
                | None => None
                end
            | EmptyString => None
            end
          else None
      end
  end.

Definition digits (s : string) : option Z :=
  match s with
  | String c s' => match digit c with Some d => digits_after d s' | None => None end
  | EmptyString => None
  end.

(** optional sign in front of a number *)
Definition signed {A} (neg : A -> A) (p : string -> option A) (s : string) : res A :=
  let r := match s with
           | String c t =>
               if Ascii.eqb c "-" then option_map neg (p t)
               else if Ascii.eqb c "+" then p t
               else p s
           | EmptyString => p s
           end in
  match r with Some a => Ok a | None => Raise ValueError end.

(** int(s) for a string s *)
Definition py_int_str (s : string) : res Z := signed Z.opp digits (strip s).

(** "{:d}".format(n) *)
Definition dec_N (n : N) : string := NilEmpty.string_of_uint (N.to_uint n).
Definition dec (z : Z) : string :=
  match z with
  | Z0 => "0"
  | Zpos p => dec_N (Npos p)
  | Zneg p => String "-" (dec_N (Npos p))
  end.

(** s.startswith(p) is [String.prefix p s]; p in s *)
Fixpoint contains (p s : string) : bool :=
  String.prefix p s ||
  match s with EmptyString => false | String _ s' => contains p s' end.

(** s.split(sep), sep not empty.  [skip] characters of an occurrence of [sep]
    remain to be dropped. *)
Fixpoint split_go (sep : string) (skip : nat) (s : string) : list string :=
  match s with
  | EmptyString => [EmptyString]
  | String c s' =>
      match skip with
      | S k => split_go sep k s'
      | O => if String.prefix sep s then EmptyString :: split_go sep (String.length sep - 1) s'
             else match split_go sep 0 s' with
                  | h :: t => String c h :: t
                  | [] => [String c EmptyString]
                  end
      end
  end.
Definition split (sep s : string) : list string := split_go sep 0 s.

(** l[i] for i >= 0 *)
Definition item {A} (l : list A) (i : nat) : res A :=
  match nth_error l i with Some a => Ok a | None => Raise IndexError end.

(** s.replace(a, b) for single characters *)
Fixpoint replace_char (a b : ascii) (s : string) : string :=
  match s with
  | EmptyString => EmptyString
  | String c s' => String (if Ascii.eqb c a then b else c) (replace_char a b s')
  end.

(** os.path.join(a, b), posixpath *)
Definition ends_with_slash (a : string) : bool :=
  match String.length a with
  | O => true          (* os.path.join: "not path or path.endswith(sep)" *)
  | S n => match String.get n a with Some c => Ascii.eqb c "/" | None => false end
  end.
Definition join (a b : string) : string :=
  if String.prefix "/" b then b
  else if ends_with_slash a then a ++ b
  else (a ++ "/" ++ b)%string.

(** round-half-even of a rational to an integer *)
Definition round_even (q : Q) : Z :=
  let n := Qnum q in
  let d := Zpos (Qden q) in
  let f := (n / d)%Z in
  let r := (2 * (n mod d))%Z in
  if (r <? d)%Z then f
  else if (d <? r)%Z then (f + 1)%Z
  else if Z.even f then f else (f + 1)%Z.

(** two digits *)
Definition two_digits (z : Z) : string :=
  if (z <? 10)%Z then String "0" (dec z) else dec z.

(** number of hundredths shown by "{:.2f}".format(t), t >= 0 *)
Definition hundredths (q : Q) : Z := round_even (Qmake (Qnum q * 100) (Qden q)).

Definition fmt_hundredths (h : Z) : string := (dec (h / 100) ++ "." ++ two_digits (h mod 100))%string.

(** "{:.2f}".format(t); a float is taken as the rational number it denotes *)
Definition fmt2 (q : Q) : string :=
  if (Qnum q <? 0)%Z then String "-" (fmt_hundredths (hundredths (- q)))
  else fmt_hundredths (hundredths q).

(** float(s), restricted to decimals: optional sign, digits, optional fraction.
    Exponents, "inf", "nan" are not modelled (ValueError).  The value is the
    decimal number; rounding to binary is not modelled. *)
Fixpoint frac_digits (acc : Z) (k : positive) (s : string) : option Q :=
  match s with
  | EmptyString => Some (Qmake acc k)
  | String c s' =>
      match digit c with
      | Some d => frac_digits (10 * acc + d) (10 * k) s'
      | None => None
      end
  end.

Definition unsigned_float (s : string) : option Q :=
  match split "." s with
  | [a] => match digits a with Some z => Some (inject_Z z) | None => None end
  | [a; b] => match digits a with Some z => frac_digits z 1 b | None => None end
  | _ => None
  end.

Definition py_float_str (s : string) : res Q := signed Qopp unsigned_float (strip s).
