(** Model of the treatment of output files in /repo/pibronic/vibronic/electronic_structure.py:
    the check that a calculation has completed, the removal of the blocks before the effective
    Hamiltonian, the insertion of nip, and parse_prepVibron_output.

    Files are lists of bytes; the navigation is that of FileSearch_Model. *)
From Verif Require Import Common PyStr_Model FileSearch_Model.
Local Open Scope string_scope.
Local Open Scope nat_scope.

Definition bytes (s : string) : list ascii := list_ascii_of_string s.
(** mmap.mmap(file.fileno(), 0): an empty file cannot be mapped *)
Definition open_map (d : list ascii) : res mmap := match d with [] => Raise ValueError | _ => Ok (mkMap d 0) end.

(** electronic_structure.py:298-304 and 1281-1287: the search for the last message *)
Definition ends_with_message (final_string : list ascii) (d : list ascii) : res bool :=
  do m <- open_map d;
  let ten_lines_back := skip_back_lines m 10 (msize m - 1) in
  Ok (negb (mfind m final_string ten_lines_back (msize m) =? -1)%Z).
(** electronic_structure.py:297 *)
Definition aces2_message : list ascii := bytes "The ACES2 program has completed successfully in".
(** electronic_structure.py:1280 *)
Definition vibron_message : list ascii := bytes "All done in main_vibron".
(** electronic_structure.py:295-321; [slurm] is job_boss.check_slurm_output(path_root, job_id) *)
Definition verify_aces2_completed (slurm : res unit) (d : list ascii) : res unit :=
  do ok <- ends_with_message aces2_message d;
  if ok then Ok tt else do _ <- slurm; Raise OtherException.
(** electronic_structure.py:1273-1296; [None]: there is no such file *)
Definition parse_vibron_output (file : option (list ascii)) : res unit :=
  match file with
  | None => Raise OSError
  | Some d => do ok <- ends_with_message vibron_message d; if ok then Ok tt else Raise OtherException
  end.

(** mm.move(dest, src, count) *)
Definition mmove (d : list ascii) (dest src count : nat) : list ascii := (firstn dest d ++ firstn count (skipn src d) ++ skipn (dest + count) d)%list.
(** mm.resize(n), n at most the size *)
Definition mresize (d : list ascii) (n : nat) : list ascii := firstn n d.
(** electronic_structure.py:1096-1175: the new contents of the file *)
Definition remove_extra_heff (target d : list ascii) : res (list ascii) :=
  do m <- open_map d;
  do start <- find_string_in_file m target;
  let start_in_bytes := Z.to_nat (mrfind m newline 0 start + 1) in
  let length_in_bytes := length d - start_in_bytes in
  Ok (mresize (mmove d 0 start_in_bytes length_in_bytes) length_in_bytes).
Definition heff_target : list ascii := bytes "HEFF_IP2".

(** the separators of "{:,d}", from the right: [n] digits since the last one *)
Fixpoint with_commas (rev_digits : list ascii) (n : nat) : list ascii :=
  match rev_digits with
  | [] => []
  | c :: r => if n =? 3 then ","%char :: c :: with_commas r 1 else c :: with_commas r (S n)
  end.
Definition grouped (n : N) : list ascii := rev (with_commas (rev (bytes (dec_N n))) 0).
(** "{:>6,d}".format(nip), electronic_structure.py:1199 *)
Definition nip_text (nip : Z) : list ascii :=
  let s := if (nip <? 0)%Z then "-"%char :: grouped (Z.to_N (- nip)) else grouped (Z.to_N nip) in
  (repeat " "%char (6 - length s) ++ s)%list.
(** mm.write at position [p] *)
Definition mwrite (d : list ascii) (p : nat) (s : list ascii) : res (list ascii) :=
  if length d <? p + length s then Raise ValueError else Ok (firstn p d ++ s ++ skipn (p + length s) d)%list.
(** electronic_structure.py:1187-1211: the contents afterwards, and how the call ends *)
Definition add_nip (nip : Z) (d : list ascii) : list ascii * res unit :=
  match open_map d with
  | Raise e => (d, Raise e)
  | Ok m =>
      match find_string_in_file m (bytes "xxx") with
      | Raise e => (d, Raise e)
      | Ok start =>
          match mwrite d (Z.to_nat start) (nip_text nip) with
          | Raise e => (d, Raise e)
          | Ok d' => (d', passert (length (nip_text nip) =? 6))
          end
      end
  end.

(** the files below path_root *)
Definition files := string -> option (list ascii).
Definition put (fs : files) (n : string) (d : list ascii) : files := fun n' => if String.eqb n' n then Some d else fs n'.
(** electronic_structure.py:1178-1184 *)
Definition copy_output_file (fs : files) (source destination : string) : res files :=
  match fs source with
  | None => Raise OSError
  | Some d => if String.eqb source destination then Raise OSError else Ok (put fs destination d)
  end.
(** [remove_extra_heff] and [add_nip] on a file *)
Definition remove_in (fs : files) (n : string) : files * res unit :=
  match fs n with
  | None => (fs, Raise OSError)
  | Some d => match remove_extra_heff heff_target d with Ok d' => (put fs n d', Ok tt) | Raise e => (fs, Raise e) end
  end.
Definition nip_in (nip : Z) (fs : files) (n : string) : files * res unit :=
  match fs n with
  | None => (fs, Raise OSError)
  | Some d => (put fs n (fst (add_nip nip d)), snd (add_nip nip d))
  end.
Definition then_ (p : files * res unit) (q : files -> files * res unit) : files * res unit :=
  match p with (fs, Ok _) => q fs | (fs, Raise e) => (fs, Raise e) end.
Definition copying (fs : files) (source destination : string) : files * res unit :=
  match copy_output_file fs source destination with Ok fs' => (fs', Ok tt) | Raise e => (fs, Raise e) end.
(** electronic_structure.py:1214-1233, with the names of the lines 53-82 for the calculation [name] *)
Definition parse_prepVibron_output (name : string) (nip : Z) (fs : files) : files * res unit :=
  then_ (copying fs (name ++ "_prepvib.pntheff") "PNTHEFF") (fun fs =>
  then_ (remove_in fs "PNTHEFF") (fun fs =>
  then_ (copying fs (name ++ "_prepvib.vibronic_coupling") "cp.auto") (fun fs =>
  then_ (remove_in fs "cp.auto") (fun fs =>
  then_ (copying fs (name ++ "_prepvib.vibron_input") (name ++ "_vibron.in")) (fun fs =>
  nip_in nip fs (name ++ "_vibron.in")))))).
