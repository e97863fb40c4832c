(** Model of parse_ip_output, /repo/pibronic/vibronic/electronic_structure.py:946-992.

    Texts are ASCII.  [percent_loop n] is the result of the loop within [n] turns, [None] if it is not left by
    then.  "line is '\n'" compares identities; CPython keeps one object for every text of one ASCII
    character, so it holds for the line '\n' and for no other line. *)
From Coq Require Import QArith.
From Verif Require Import Common PyStr_Model FileSearch_Model ModelOp_Model FileName_Model Zmat_Model.
Local Open Scope string_scope.
Local Open Scope nat_scope.

(** line 960 *)
Definition singles_target : list ascii := list_ascii_of_string "Summary of ionization-potential eom-cc calculation".
(** lines 971-977 *)
Fixpoint percent_loop (n : nat) (m : mmap) (lines : list string) : option (list string) :=
  match n with
  | O => None
  | S n' =>
      let (line, m') := take_line m in
      if String.eqb line newline_s || contains "--------" line then Some lines
      else percent_loop n' m' (lines ++ [line])%list
  end.

Section Singles.
  (** float(s) *)
  Variable py_float : string -> res Q.
  Variable cutoff : Q.
  (** lines 980-990: whether all of the fifth words are above the cutoff *)
  Definition judge (lines : list string) : res bool :=
    do percent <- map_res (fun x => do w <- item (words x) 4; py_float w) lines;
    Ok (negb (existsb (fun p => Qle_bool p cutoff) percent)).
  (** lines 946-992; [file]: the contents of the file, if there is one *)
  Definition parse_ip_output (n : nat) (file : option string) : option (res bool) :=
    match file with
    | None => Some (Raise OSError)
    | Some text =>
        match list_ascii_of_string text with
        | [] => Some (Raise ValueError)
        | d =>
            match find_string_in_file (mkMap d 0) singles_target with
            | Raise e => Some (Raise e)
            | Ok begin_ =>
                let past_headers := skip_forward_lines (mkMap d (Z.to_nat begin_)) 5 begin_ in
                match percent_loop n (mkMap d (Z.to_nat past_headers)) [] with
                | None => None
                | Some lines => Some (judge lines)
                end
            end
        end
    end.
End Singles.
