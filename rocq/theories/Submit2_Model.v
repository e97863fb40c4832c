(** Model of /repo/examples/artificial_systems/submit_jobs_to_server.py:67-126,
    218-270 and of /repo/examples/artificial_systems/systems.py:14-27, 57-66,
    81-108.

    The sums over states are submitted as for the paper (lines 67-94 are the same
    text, see Submit_Model), the Trotter products and the analytic results are
    not.  As in Submit_Model the files seen by the k-th check are [world k], and
    starting a command does not fail. *)
From Coq Require Import QArith.
From Verif Require Import Common PyStr_Model FileName_Model Json_Model FileStruct_Model Julia_Model Submit_Model.
Local Open Scope string_scope.
Local Open Scope nat_scope.

(** lines 112-124: the loop over the numbers of beads for one size and
    temperature; [cmd] is the local variable of this name, None while it is unbound *)
Fixpoint bead_loop (world : nat -> fsys string) (f : fstruct) (B : Z) (T : Q) (k : nat) (cmd : option string) (Ps : list Z) : nat * res (option string) :=
  match Ps with
  | [] => (k, Ok cmd)
  | P :: Ps' =>
      match (do path <- target f (Trotter P B); already (world k) f path T) with
      | Raise e => (S k, Raise e)
      | Ok true => bead_loop world f B T (S k) cmd Ps'
      | Ok false =>
          match job_command f (Trotter P B) T with
          | Raise e => (S k, Raise e)
          | Ok c => bead_loop world f B T (S k) (Some c) Ps'
          end
      end
  end.
(** lines 110-125: the command is executed after that loop *)
Fixpoint pair_loop (world : nat -> fsys string) (f : fstruct) (Ps : list Z) (k : nat) (cmd : option string) (l : list (Z * Q)) : list string * res unit :=
  match l with
  | [] => ([], Ok tt)
  | (B, T) :: l' =>
      match bead_loop world f B T k cmd Ps with
      | (_, Raise e) => ([], Raise e)
      | (_, Ok None) => ([], Raise UnboundLocalError)
      | (k', Ok (Some c)) => let r := pair_loop world f Ps k' (Some c) l' in (c :: fst r, snd r)
      end
  end.
(** _generate_trotter_results, lines 97-126 *)
Definition art_trotter_results (world : nat -> fsys string) (f : fstruct) (Ts : list Q) (Bs Ps : list Z) : list string * res unit :=
  pair_loop world f Ps 0 None (flat_map (fun B => map (fun T => (B, T)) Ts) Bs).

(** systems.py:14, 20-24 *)
Definition art_names : list string := ["2x2"; "4x6"; "7x12"].
Definition art_ids : list (string * list Z) :=
  combine art_names (map (fun a => map (fun k => (a + Z.of_nat k)%Z) (seq 0 5)) [11; 21; 31]%Z).
(** systems.py:26-27, 57-66 *)
Definition art_assert_valid (d : Z) : res unit := passert (existsb (Z.eqb d) (concat (map snd art_ids))).
(** systems.py:99-108 *)
Definition art_system_name (d : Z) : res string :=
  do _ <- art_assert_valid d;
  match filter (fun n => match dget String.eqb art_ids n with Some l => existsb (Z.eqb d) l | None => false end) art_names with
  | n :: _ => Ok n
  | [] => Raise OtherException
  end.
(** systems.py:81-96; the parameter in hundredths *)
Definition art_tuning (d : Z) : res Z :=
  do _ <- art_assert_valid d;
  match dget Z.eqb [(1, 5); (2, 25); (3, 50); (4, 75); (5, 100)]%Z (d mod 10)%Z with Some x => Ok x | None => Raise KeyError end.

(** the commands of lines 218-237 and 240-259 *)
Definition original_command (f : fstruct) (T : Q) : res string :=
  do code <- py_format (jl_import ++ "b = beta({temperature:.2f});" ++ fs_text f ++ "FS.generate_model_hashes();" ++ "jw.prepare_julia();" ++
                        "pibronic.julia_wrapper.analytic_of_coupled_model(FS, b);") [("temperature:.2f", fmt2 T)];
  Ok ("srun" ++ " --job-name=analytic_D" ++ dec (id_data f) ++ "_T" ++ fmt2 T ++ " python3 -c '" ++ code ++ "'").
Definition sampling_command (f : fstruct) (T : Q) : res string :=
  do code <- func_call f Sampling T;
  Ok ("srun" ++ " --job-name=analytic_D" ++ dec (id_data f) ++ "_R" ++ dec (id_rho f) ++ "_T" ++ fmt2 T ++ " python3 -c '" ++ code ++ "'").
(** one command after the other *)
Fixpoint each (command : Q -> res string) (Ts : list Q) : list string * res unit :=
  match Ts with
  | [] => ([], Ok tt)
  | T :: Ts' => match command T with Raise e => ([], Raise e) | Ok c => let r := each command Ts' in (c :: fst r, snd r) end
  end.
(** generate_analytical_results, lines 262-270 *)
Definition art_analytical_results (f : fstruct) (Ts : list Q) : list string * res unit :=
  match art_assert_valid (id_data f) with
  | Raise e => ([], Raise e)
  | Ok _ =>
      match each (original_command f) Ts with
      | (cs, Raise e) => (cs, Raise e)
      | (cs, Ok _) => let r := each (sampling_command f) Ts in ((cs ++ fst r)%list, snd r)
      end
  end.

(** the functions defined in /repo/pibronic/julia_wrapper.py (lines 56-370) *)
Definition julia_wrapper_names : list string :=
  ["parse_ouput"; "convert_keys"; "compute"; "validate_old_rho_data"; "validate_old_model_data"; "base_func"; "analytic_wrapper";
   "analytic_of_sampling_model"; "analytic_of_original_coupled_model"; "sos_wrapper"; "sos_of_coupled_model"; "trotter_wrapper";
   "trotter_of_coupled_model"; "iterate_method"; "prepare_julia"; "construct_command_dictionary"; "main"].
(** the last statement of the code of a job, pibronic.julia_wrapper.name(...): the attribute is looked up first; [call] is what the function does *)
Definition last_statement (name : string) (call : fsys string -> fsys string * res unit) (fs : fsys string) : fsys string * res unit :=
  if existsb (String.eqb name) julia_wrapper_names then call fs else (fs, Raise AttributeError).
