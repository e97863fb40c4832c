(** Model of the reader of model.h files, /repo/pibronic/vibronic/model_h.py:16-294, and of
    vibronic_model_io.py:419-421, 429-436, 447-465, which use it or are unfinished.

    The global variable States of model_h.py is set by read_model_h_file only, which never gets there
    (theorem C94_read): it is undefined in every call of the other functions, NameError.
    UnboundLocalError, a kind of NameError, stands for it.  FileNotFoundError is a kind of OSError,
    UnicodeDecodeError one of ValueError.  A text file is the list of the lines that are left; the end of
    a line plays no role.  Frequencies are texts and abstract numbers. *)
From Verif Require Import Common PyStr_Model FileName_Model FileStruct_Model FileSearch_Model ModelOp_Model.
Local Open Scope string_scope.
Local Open Scope list_scope.
Local Open Scope nat_scope.

(** file.readline() *)
Definition next_line (lines : list string) : string * list string := match lines with [] => ("", []) | l :: r => (l, r) end.
(** the next line has to contain [target]; int(line.split()[0]) *)
Definition counted (target line : string) : res Z :=
  if contains target line then do w <- item (words line) 0; py_int_str w else Raise OtherException.
(** 16-33 get_number_of_electronic_states *)
Definition get_number_of_electronic_states (lines : list string) : res (Z * list string) :=
  let (_, lines) := next_line lines in
  let (line, lines) := next_line lines in
  do n <- counted "Number of electronic states" line; Ok (n, lines).
(** 36-65 get_number_of_normal_modes: all modes, symmetric modes *)
Definition get_number_of_normal_modes (lines : list string) : res (Z * Z * list string) :=
  let (line, lines) := next_line lines in
  do s <- counted "Number of symmetric normal modes" line;
  let (line, lines) := next_line lines in
  do o <- counted "Number of non-A1 normal modes" line;
  Ok ((s + o)%Z, s, lines).

Section Frequencies.
  Variable F : Type.
  Variable py_float : string -> res F.
  (** assignment of a list to [n] elements of an array: a single value is repeated *)
  Definition assign (n : nat) (l : list F) : res (list F) :=
    if Nat.eqb (length l) n then Ok l else match l with [x] => Ok (repeat x n) | _ => Raise ValueError end.
  (** the index s as the end or begin of a slice of an array of [n] elements *)
  Definition slice_at (n : nat) (s : Z) : nat := Z.to_nat (if (s <? 0)%Z then Z.max 0 (Z.of_nat n + s) else Z.min s (Z.of_nat n)).
  (** 68-86 extract_normal_mode_frequencies: the array afterwards *)
  Definition extract_normal_mode_frequencies (lines : list string) (arr : list F) (symmetric_modes : Z) : res (list F * list string) :=
    let k := slice_at (length arr) symmetric_modes in
    let (_, lines) := next_line lines in
    let (_, lines) := next_line lines in
    let (line, lines) := next_line lines in
    do xs <- map_res py_float (words line);
    do xs <- assign k xs;
    let arr := xs ++ skipn k arr in
    let (_, lines) := next_line lines in
    let (line, lines) := next_line lines in
    do ys <- map_res py_float (words line);
    do ys <- assign (length arr - k) ys;
    Ok (firstn k arr ++ ys, lines).
End Frequencies.

Definition NameError : exn := UnboundLocalError.
(** the common beginning of 89-99, 115-126, 149-160, 183-194 *)
Definition region (d : list ascii) (b e : string) : res (Z * Z) :=
  do begin <- find_string_in_file (mkMap d 0) (list_ascii_of_string b);
  do end_ <- find_string_in_file (mkMap d 0) (list_ascii_of_string e);
  Ok (begin, end_).
(** 89-112 extract_energies; [decodes] tells whether bytes are the encoding of a text *)
Definition extract_energies (decodes : list ascii -> bool) (d : list ascii) : res unit :=
  do be <- region d "Reference Hamiltonian" "Gradients of heff along normal modes";
  let m := readline (mkMap d (Z.to_nat (fst be))) in
  if decodes (mread m (snd be - Z.of_nat (pos m))%Z) then Raise NameError else Raise ValueError.
(** 115-146 extract_linear_couplings, 149-180 extract_quadratic_couplings: only the first frequency is looked for *)
Definition first_block (d : list ascii) (b e : string) (frequencies : list string) : res unit :=
  do be <- region d b e;
  match frequencies with
  | [] => Ok tt
  | w :: _ => if (mfind (mkMap d (Z.to_nat (fst be))) (list_ascii_of_string w) (fst be) (snd be) =? -1)%Z then Raise OtherException else Raise NameError
  end.
Definition extract_linear_couplings (d : list ascii) (frequencies : list string) : res unit :=
  first_block d "Gradients of heff along normal modes" "Diagonal second order corrections of heff" frequencies.
Definition extract_quadratic_couplings (d : list ascii) (frequencies : list string) : res unit :=
  first_block d "Diagonal second order corrections of heff" "Off-diagonal second order corrections heff" frequencies.
(** 183-226 extract_offdiag_quadratic_couplings: the first pair is the second and the first frequency *)
Definition extract_offdiag_quadratic_couplings (d : list ascii) (frequencies : list string) : res unit :=
  do be <- region d "Off-diagonal second order corrections heff" "Diagonal Cubic corrections of heff";
  match frequencies with
  | w2 :: w1 :: _ =>
      let m := mkMap d (Z.to_nat (fst be)) in
      if (mfind m (list_ascii_of_string w1) (Z.of_nat (pos m)) (snd be) =? -1)%Z then Raise OtherException
      else if (mfind m (list_ascii_of_string w2) (Z.of_nat (pos m)) (snd be) =? -1)%Z then Raise OtherException
      else Raise NameError
  | _ => Ok tt
  end.
(** 239-294 read_model_h_file: get_number_of_electronic_states is called with one argument of two *)
Definition read_model_h_file {A} (isfile : string -> bool) (path : string) : res A :=
  if negb (isfile path) then Raise OSError
  else if negb (isfile (String.substring 0 (String.length path - 2) path ++ ".in")%string) then Raise OSError
  else Raise TypeError.
(** vibronic_model_io.py:429-436 create_coupling_from_h_file: files afterwards and result *)
Definition create_coupling_from_h_file {A} (save : A -> fsys string -> fsys string) (fs : fsys string) (f : fstruct) (path : string) : fsys string * res string :=
  match read_model_h_file (fun p => match fs p with Some _ => true | None => false end) path with
  | Raise e => (fs, Raise e)
  | Ok model => (save model fs, Ok (path_vib_model f))
  end.
(** vibronic_model_io.py:447-465 create_coupling_from_op_hyperlink *)
Definition create_coupling_from_op_hyperlink (fs : fsys string) (url : string) : fsys string * res string := (fs, Raise AssertionError).
