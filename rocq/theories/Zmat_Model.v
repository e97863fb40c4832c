(** Model of class ZmatClass, /repo/pibronic/vibronic/electronic_structure.py:1299-1401, and of the
    optimised geometry read by parse_opt_output, lines 738-817.

    Texts are ASCII.  The loops of parse_opt_output read lines until one of two lines is met; [loop n]
    is the result within [n] turns, [None] if the loop is not left by then. *)
From Verif Require Import Common PyStr_Model FileSearch_Model ModelOp_Model.
Local Open Scope string_scope.
Local Open Scope nat_scope.

Definition newline_s : string := String "010"%char "".
Definition blank_line : string := newline_s ++ newline_s.

(** kind, _internal, _coord and _cartesian *)
Inductive zmat := Internal (internal : string) (coord : list (string * string)) | Cartesian (cartesian : string).

(** map(str.strip, x.split('=')) as an element of the list given to dict() *)
Definition pair_of (x : string) : res (string * string) :=
  match map strip (split "=" x) with [k; v] => Ok (k, v) | _ => Raise ValueError end.
Definition dict_of (lines : list string) : res (list (string * string)) :=
  for_res (fun d x => do kv <- pair_of x; Ok (dset String.eqb d (fst kv) (snd kv))) lines [].

(** __init__, lines 1316-1345, for the text of the file *)
Definition zmat_init (text : string) : res zmat :=
  let data := text ++ newline_s in
  if contains "=" data then
    let b := split blank_line data in
    do b0 <- item b 0;
    do b1 <- item b 1;
    do coord <- dict_of (splitlines b1);
    Ok (Internal (b0 ++ newline_s) coord)
  else Ok (Cartesian (data ++ newline_s)).

(** s.replace("*", "") *)
Definition without_stars (s : string) : string := remove "*" s.
(** get, lines 1347-1369 *)
Definition zmat_get (opt_zmat : bool) (z : zmat) : string :=
  match z with
  | Internal internal coord =>
      let complete := internal ++ newline_s in
      let complete := if opt_zmat then complete else without_stars complete in
      fold_left (fun s kv => s ++ fst kv ++ "=" ++ snd kv ++ newline_s) coord complete ++ newline_s
  | Cartesian c => c
  end.
(** set, lines 1371-1401, for internal coordinates *)
Definition set_internal (internal : string) (coord geometry_new : list (string * string)) : zmat :=
  Internal internal (dupdate String.eqb coord geometry_new).
Definition nonempty_lines (s : string) : list string := filter (fun line => negb (String.eqb line "")) (split newline_s s).
(** geometry_old[i + diff] = geometry_new[i] for all i *)
Fixpoint put_at {A} (l : list A) (i : nat) (x : A) : list A :=
  match l, i with
  | [], _ => []
  | _ :: l', O => x :: l'
  | y :: l', S i' => y :: put_at l' i' x
  end.
(** set, for cartesian coordinates *)
Definition set_cartesian (cartesian geometry_new : string) : res zmat :=
  let new_ := nonempty_lines geometry_new in
  let old := nonempty_lines cartesian in
  if length old <? length new_ then Raise OtherException
  else
    let diff := length old - length new_ in
    let result := if diff =? 0 then new_ else fold_left (fun o i => put_at o (i + diff) (nth i new_ "")) (seq 0 (length new_)) old in
    Ok (Cartesian (String.concat newline_s result ++ blank_line)).

(** mm.readline(): the line with its end *)
Definition take_line (m : mmap) : string * mmap :=
  let m' := readline m in (string_of_list_ascii (firstn (pos m' - pos m) (skipn (pos m) (data m))), m').
Definition last_heading : string := "Frequencies of the updated Hessian at convergence".
(** the loops in lines 762-768 and 791-797 *)
Fixpoint loop (n : nat) (m : mmap) (lines : list string) : option (list string) :=
  match n with
  | O => None
  | S n' =>
      let (line, m') := take_line m in
      if String.eqb line newline_s || String.eqb line last_heading then Some lines else loop n' m' (lines ++ [line])%list
  end.
(** lines 749-768 and 778-797: [None] if the loop is not left within [n] turns *)
Definition geometry_lines (target : string) (n : nat) (d : list ascii) : res (option (list string)) :=
  match d with
  | [] => Raise ValueError
  | _ => do begin_ <- find_string_in_file (mkMap d 0) (list_ascii_of_string target);
         Ok (loop n (readlines (mkMap d (Z.to_nat begin_)) 2) [])
  end.
Definition internal_heading : string := "Summary of optimized internal coordinates".
Definition cartesian_heading : string := "Summary of optimized Cartesian coordinates (Ang)".
(** lines 799-808 *)
Definition cartesian_text (lines : list string) : string :=
  String.concat "" (map (fun line => String.concat "" (map (fun item => item ++ " ") (words line)) ++ newline_s) lines) ++ newline_s.
(** parse_opt_output, lines 738-817; [file]: the contents of the output, if it exists *)
Definition parse_opt_output (n : nat) (z : zmat) (file : option (list ascii)) : res (option zmat) :=
  match file with
  | None => Raise OSError
  | Some d =>
      match z with
      | Internal internal coord =>
          do ls <- geometry_lines internal_heading n d;
          match ls with
          | None => Ok None
          | Some lines => do g <- dict_of lines; Ok (Some (set_internal internal coord g))
          end
      | Cartesian c =>
          do ls <- geometry_lines cartesian_heading n d;
          match ls with
          | None => Ok None
          | Some lines => do z <- set_cartesian c (cartesian_text lines); Ok (Some z)
          end
      end
  end.
