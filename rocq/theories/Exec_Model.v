(** The electronic structure workflow of pibronic/vibronic/electronic_structure.py: its
    states, the file that records them, the parameter file and the order of the steps.
    Line numbers without a file name refer to that file.
    The outcome of every external calculation and of every parser of its output is a
    parameter ([world]); section [Real] then replaces the calculations by what the code does.
    Texts are read after universal newline translation.  Logging is not modelled. *)
From Verif Require Import Common PyStr_Model JobBoss_Model.
Local Open Scope nat_scope.

(** ---- the states, 33-49 ---- *)
(** class State, 33-41 *)
Inductive stage := OPT | NIP | VIB | IPEOMCC | PREPVIB | VIBRON | FINISHED.
(** iteration over State, in the order of definition, 33-41 *)
Definition members : list stage := [OPT; NIP; VIB; IPEOMCC; PREPVIB; VIBRON; FINISHED].
(** enum.auto() counts from 1, 35-41 *)
Definition value (s : stage) : Z :=
  match s with OPT => 1 | NIP => 2 | VIB => 3 | IPEOMCC => 4 | PREPVIB => 5 | VIBRON => 6 | FINISHED => 7 end%Z.
(** State.name, 35-41 *)
Definition sname (s : stage) : string :=
  match s with
  | OPT => "OPT" | NIP => "NIP" | VIB => "VIB" | IPEOMCC => "IPEOMCC" | PREPVIB => "PREPVIB"
  | VIBRON => "VIBRON" | FINISHED => "FINISHED"
  end%string.
(** State(value), an enum call: ValueError for an unknown value, 33-41 *)
Definition of_value (z : Z) : res stage :=
  match find (fun s => Z.eqb (value s) z) members with Some s => Ok s | None => Raise ValueError end.
(** State.max, 43-45; State.min, 47-49 *)
Definition max_value : Z := fold_right Z.max 1%Z (map value members).
Definition min_value : Z := fold_right Z.min 7%Z (map value members).
(** equality of states (identity of enum members) *)
Definition stage_eqb (a b : stage) : bool := Z.eqb (value a) (value b).

(** ---- the execution object, 1404-1456 ---- *)
(** values of parameter_dictionary, 1415-1426: None, a text read from the file, an integer *)
Inductive pval := PNone | PText (s : string) | PInt (z : Z).
Definition pdict := list (string * pval).
(** the class attribute parameter_dictionary, 1415-1426.  It is one mutable dictionary for all objects. *)
Definition default_parameters : pdict :=
  [("calculation", PNone); ("theory", PNone); ("basis", PNone); ("DROPMO", PText ""); ("NIP", PNone);
   ("gridVibron", PInt 3); ("ccConv", PInt 10); ("scfConv", PInt 10); ("estateTol", PInt 10)]%string%list.

(** what happened, for stating properties (ghost): a calculation was started or it returned,
    the search for nip moved on *)
Inductive event :=
| Started (s : stage) (nip : option Z)
| Completed (s : stage) (nip : option Z).

(** jstate: self.state, 1440; jfile: the contents of the file self.path_state, 1446;
    jparams: parameter_dictionary; jlog: ghost *)
Record job := mkJob { jstate : option stage; jfile : option string; jparams : pdict; jlog : list event }.
Definition set_state (j : job) (s : option stage) : job := mkJob s (jfile j) (jparams j) (jlog j).
Definition set_file (j : job) (f : option string) : job := mkJob (jstate j) f (jparams j) (jlog j).
Definition set_params (j : job) (d : pdict) : job := mkJob (jstate j) (jfile j) d (jlog j).
Definition add_event (j : job) (e : event) : job := mkJob (jstate j) (jfile j) (jparams j) (jlog j ++ [e]).

(** __init__, 1441-1456: only the part that sets the state *)
Definition new_job (state : option Z) (file : option string) (params : pdict) : res job :=
  match state with
  | None => Ok (mkJob None file params [])
  | Some z => do s <- of_value z; Ok (mkJob (Some s) file params [])
  end.

(** methods: they change the object and may raise *)
Definition method (A : Type) := job -> job * res A.
Definition ret {A} (a : A) : method A := fun j => (j, Ok a).
Definition fail {A} (e : exn) : method A := fun j => (j, Raise e).
Definition lift {A} (r : res A) : method A := fun j => (j, r).
Definition mbind {A B} (m : method A) (f : A -> method B) : method B :=
  fun j => match m j with (j', Ok a) => f a j' | (j', Raise e) => (j', Raise e) end.
Notation "'run' x <- a ; b" := (mbind a (fun x => b)) (at level 200, x pattern, a at level 100, b at level 200).

(** "\n" *)
Definition nl : string := String newline EmptyString.

(** record_state, 1458-1462: open(.., 'a') creates the file; None has no attribute name *)
Definition record_state : method unit := fun j =>
  let text := match jfile j with None => "" | Some t => t end in
  match jstate j with
  | None => (set_file j (Some text), Raise AttributeError)
  | Some s => (set_file j (Some (text ++ sname s ++ nl)%string), Ok tt)
  end.

(** create the state file if it does not exist, 1466-1470 and 1577-1581 *)
Definition create_state_file : method unit := fun j =>
  (match jfile j with None => set_file j (Some EmptyString) | Some _ => j end, Ok tt).

(** advance, 1464-1486 *)
Definition advance : method unit :=
  run _ <- create_state_file;
  run _ <- record_state;
  fun j =>
    match jstate j with
    | None => (j, Raise AttributeError)
    | Some s =>
        if stage_eqb s FINISHED then record_state j
        else if (value s <? max_value)%Z then
               match of_value (value s + 1) with
               | Ok s' => (set_state j (Some s'), Ok tt)
               | Raise e => (j, Raise e)
               end
             else (j, Raise OtherException)
    end.

(** the loop of _set_state_from_file over the reversed lines, 1513-1539.  The comparison and the
    membership test of 1522 and 1525 compare a text with enum members and are false
    (Python 3.6; since 3.8 the membership test raises TypeError).  The break of 1531 only leaves
    the inner loop, so the search goes on with the line before. *)
Fixpoint state_loop (lines : list string) (st : option stage) : option stage * res unit :=
  match lines with
  | [] => (st, Ok tt)
  | line :: rest =>
      if String.eqb line EmptyString || String.eqb line nl then state_loop rest st
      else match find (fun m => String.eqb (sname m) (strip line)) members with
           | Some m =>
               match of_value (value m + 1) with
               | Ok s => state_loop rest (Some s)
               | Raise e => (st, Raise e)
               end
           | None => match of_value min_value with Ok s => (Some s, Ok tt) | Raise e => (st, Raise e) end
           end
  end.

(** _set_state_from_file, 1500-1541; os.stat of a missing file is FileNotFoundError *)
Definition set_state_from_file : method unit := fun j =>
  match jfile j with
  | None => (j, Raise OSError)
  | Some text =>
      if String.eqb text EmptyString then
        match of_value min_value with Ok s => (set_state j (Some s), Ok tt) | Raise e => (j, Raise e) end
      else let (st, r) := state_loop (rev (file_lines text)) (jstate j) in (set_state j st, r)
  end.

(** ---- the parameter file ---- *)
(** the lists of supported methods, 81-101 *)
Definition basis_list : list string := ["TZ2P"; "DZP"]%string%list.
Definition theory_list : list string := ["MBPT(2)"; "CCSD"; "CCSD(T)"]%string%list.
Definition calculations_list : list string := ["IP"]%string%list.

(** the loop over the lines of the parameter file, 1556-1567: a line that is neither blank nor a
    comment is a header, the next line its value; next() at the end raises StopIteration *)
Fixpoint read_parameters (d : pdict) (lines : list string) {struct lines} : pdict * res unit :=
  match lines with
  | [] => (d, Ok tt)
  | line :: rest =>
      if xorb (negb (String.eqb (strip line) EmptyString)) (String.prefix "#" line) then
        match rest with
        | [] => (d, Raise OtherException)
        | data :: rest' =>
            if dmem String.eqb d (strip line)
            then read_parameters (dset String.eqb d (strip line) (PText (strip data))) rest'
            else (d, Raise ValueError)
        end
      else read_parameters d rest
  end.

(** parameter_dictionary[key] in list, 1573-1575 *)
Definition supported (d : pdict) (key : string) (l : list string) : res unit :=
  match dget String.eqb d key with
  | None => Raise KeyError
  | Some (PText s) => passert (existsb (String.eqb s) l)
  | Some _ => Raise AssertionError
  end.

(** parse_input_parameters, 1543-1587; [file] are the contents of the parameter file *)
Definition parse_input_parameters (file : option string) : method unit :=
  run _ <- (fun j => match file with
                     | None => (j, Raise OSError)
                     | Some text => let (d, r) := read_parameters (jparams j) (file_lines text) in (set_params j d, r)
                     end);
  run _ <- (fun j => (j, supported (jparams j) "basis" basis_list));
  run _ <- (fun j => (j, supported (jparams j) "theory" theory_list));
  run _ <- (fun j => (j, supported (jparams j) "calculation" calculations_list));
  run _ <- create_state_file;
  fun j => match jstate j with None => set_state_from_file j | Some _ => (j, Ok tt) end.

(** ---- the steps ---- *)
(** outcomes of everything outside: the contents of the parameter file, the constructor of
    ZmatClass (1316-1346), the calculations and the parsers of their output files.
    w_parse_ip: whether all states for a given nip have enough singles (parse_ip_output, 946-992) *)
Record world := mkWorld {
  w_file : option string;
  w_zmat : res unit;
  w_geom : res unit;     w_parse_opt : res unit;
  w_hf : res unit;       w_parse_hf : res Z;
  w_vib : res unit;
  w_ip : Z -> res unit;  w_parse_ip : Z -> res bool;
  w_prep : res unit;     w_parse_prep : res unit;
  w_vibron : res unit;   w_parse_vibron : res unit }.

(** a calculation: started, and completed if it does not raise (ghost events) *)
Definition calculation (s : stage) (nip : option Z) (r : res unit) : method unit := fun j =>
  let j := add_event j (Started s nip) in
  match r with
  | Ok _ => (add_event j (Completed s nip), Ok tt)
  | Raise e => (j, Raise e)
  end.

(** parameter_dictionary["nip"] *)
Definition get_nip : method Z := fun j =>
  match dget String.eqb (jparams j) "nip" with
  | Some (PInt z) => (j, Ok z)
  | Some _ => (j, Raise TypeError)
  | None => (j, Raise KeyError)
  end.
(** parameter_dictionary["nip"] = z, 668 and 1011 *)
Definition set_nip (z : Z) : method unit := fun j =>
  (set_params j (dset String.eqb (jparams j) "nip"%string (PInt z)), Ok tt).

(** self.state == s: a method is only run in its own state *)
Definition in_state (s : stage) (m : method unit) : method unit := fun j =>
  match jstate j with
  | Some s' => if stage_eqb s s' then m j else (j, Ok tt)
  | None => (j, Ok tt)
  end.

(** geom, 1597-1602 *)
Definition geom (w : world) : method unit :=
  in_state OPT (run _ <- calculation OPT None (w_geom w); advance).
(** hf(State.NIP), 1589-1595 *)
Definition hf (w : world) : method unit :=
  in_state NIP (run _ <- calculation NIP None (w_hf w); advance).
(** parse_hartree_fock_output(self, State.NIP), 650-676 *)
Definition parse_hf (w : world) : method unit :=
  run z <- lift (w_parse_hf w); set_nip z.
(** vib, 1604-1609 *)
Definition vib (w : world) : method unit :=
  in_state VIB (run _ <- calculation VIB None (w_vib w); advance).
(** ip_calc, 1611-1615: does not advance *)
Definition ip_calc (w : world) : method unit :=
  in_state IPEOMCC (run z <- get_nip; calculation IPEOMCC (Some z) (w_ip w z)).
(** prepVibron, 1617-1622 *)
Definition prepVibron (w : world) : method unit :=
  in_state PREPVIB (run _ <- calculation PREPVIB None (w_prep w); advance).
(** vibron_calc, 1624-1629 *)
Definition vibron_calc (w : world) : method unit :=
  in_state VIBRON (run _ <- calculation VIBRON None (w_vibron w); advance).

(** one round of the loop of verify_ip_states, 997-1014: true if the loop is left *)
Definition ip_round (w : world) : method bool :=
  run _ <- ip_calc w;
  run z <- get_nip;
  run good <- lift (w_parse_ip w z);
  if good : bool then run _ <- in_state IPEOMCC advance; ret true
  else run _ <- set_nip (z - 1)%Z;
       if Z.eqb (z - 1) 0 then fail OtherException else ret false.
(** verify_ip_states, 995-1015: while True; None if it is still running after [fuel] rounds *)
Fixpoint verify_ip_states (w : world) (fuel : nat) (j : job) : option (job * res unit) :=
  match fuel with
  | O => None
  | S f =>
      match ip_round w j with
      | (j', Ok true) => Some (j', Ok tt)
      | (j', Ok false) => verify_ip_states w f j'
      | (j', Raise e) => Some (j', Raise e)
      end
  end.

(** the part before the loop, 1636-1647 *)
Definition first_part (w : world) : method unit :=
  run _ <- geom w;
  run _ <- lift (w_parse_opt w);
  run _ <- hf w;
  run _ <- parse_hf w;
  vib w.
(** the part after it, 1651-1657 *)
Definition last_part (w : world) : method unit :=
  run _ <- prepVibron w;
  run _ <- lift (w_parse_prep w);
  run _ <- vibron_calc w;
  run _ <- lift (w_parse_vibron w);
  advance.

(** calculate_vibronic_model, 1631-1659; None if the search for nip is still running after [fuel] rounds *)
Definition calculate_vibronic_model (w : world) (fuel : nat) (j : job) : option (job * res unit) :=
  match (run _ <- parse_input_parameters (w_file w); lift (w_zmat w)) j with
  | (j, Raise e) => Some (j, Raise e)
  | (j, Ok _) =>
      match jstate j with
      | None => Some (j, Raise AttributeError)
      | Some s =>
          if (value s <? max_value)%Z then
            match first_part w j with
            | (j, Raise e) => Some (j, Raise e)
            | (j, Ok _) =>
                match verify_ip_states w fuel j with
                | None => None
                | Some (j, Raise e) => Some (j, Raise e)
                | Some (j, Ok _) => Some (last_part w j)
                end
            end
          else Some (j, Ok tt)
      end
  end.

(** main, 1689-1702 with test_one, 1662-1672: the command line without a number starts in state 0 *)
Definition test_one (initial : option Z) (file : option string) (params : pdict) : res job :=
  new_job (Some (match initial with None => 0%Z | Some z => z end)) file params.

(** ---- the calculations as they are written ---- *)
(** the names defined at the top level of server/job_boss.py (lines 5-493) *)
Definition job_boss_names : list string :=
  ["subprocess"; "threading"; "socket"; "signal"; "time"; "sys"; "os"; "log"; "constants"; "pimc";
   "job_state_lock"; "job_almost_done_flag"; "get_path_to_python_executable";
   "get_path_of_job_boss_directory"; "subprocess_submit_asynch_wrapper"; "subprocess_run_wrapper";
   "get_hostname"; "SIGUSR1_handle"; "check_acct_state"; "check_running_state";
   "synchronize_with_job"; "check_slurm_output"; "extract_id_job_from_output"; "submit_job";
   "assert_partition_exists"; "serialize_BoxData_dictionary"; "prepare_job_feynman";
   "prepare_job_nlogn"; "prepare_job_compute_canada"; "prepare_job_orca"; "prepare_job_graham";
   "SubmissionClass"; "PimcSubmissionClass"]%string%list.
(** job_boss.name *)
Definition job_boss_attribute (x : string) : res unit :=
  if existsb (String.eqb x) job_boss_names then Ok tt else Raise AttributeError.
(** the dictionaries slurm_parameters, e.g. 709-724: they contain job_boss.partition and job_boss.hostname *)
Definition slurm_parameters : res unit :=
  do _ <- job_boss_attribute "partition"; job_boss_attribute "hostname".
(** submit_job, 324-355: [r] is the outcome of job_boss.submit_job (id, stdout, stderr), job_boss.py:181-193;
    stderr is a text (universal_newlines / text=True, job_boss.py:49-57) and has no method decode *)
Definition es_submit_job (r : res (option Z * string * string)) : res (option Z) :=
  do _ <- r; Raise AttributeError.
(** the calculations 401-459, 679-735, 820-880, 883-943, 1237-1268: write the input file ([before]), build
    slurm_parameters, submit, wait and verify ([after]) *)
Definition real_calculation (before : res unit) (submitted : res (option Z * string * string)) (after : res unit) : res unit :=
  do _ <- before; do _ <- slurm_parameters; do _ <- es_submit_job submitted; after.
(** prepVibron_calculation, 1046-1093: _create_template (1018-1043) ends with a bare return, so
    template is None and None.format_map raises AttributeError *)
Definition real_prepVibron (template : res string) : res unit :=
  do _ <- template; Raise AttributeError.
(** the world in which the calculations are those of the code *)
Definition real_world (w : world) (b1 b2 b3 b5 : res unit) (b4 : Z -> res unit) (template : res string)
    (s1 s2 s3 s5 : res (option Z * string * string)) (s4 : Z -> res (option Z * string * string)) : world :=
  mkWorld (w_file w) (w_zmat w) (real_calculation b1 s1 (w_geom w)) (w_parse_opt w)
    (real_calculation b2 s2 (w_hf w)) (w_parse_hf w) (real_calculation b3 s3 (w_vib w))
    (fun z => real_calculation (b4 z) (s4 z) (w_ip w z)) (w_parse_ip w)
    (real_prepVibron template) (w_parse_prep w) (real_calculation b5 s5 (w_vibron w)) (w_parse_vibron w).

(** wait_on_results, 271-291: [sync] the outcome of job_boss.synchronize_with_job, [acct] what
    check_acct_state returns *)
Definition wait_on_results (sync : res unit) (acct : string) : res unit :=
  do _ <- sync;
  if contains "FAILED" acct then Raise OtherException
  else if contains "COMPLETED" acct then Ok tt else Raise OtherException.
