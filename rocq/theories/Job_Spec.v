(** Notions used to state the properties of a submitted job (Job_Model.v). *)
From Coq Require Import QArith.
From Verif Require Import Common PyStr_Model Json_Model Json_Spec JobBoss_Model Results_Model JobBoss2_Proofs Job_Model.
Local Open Scope string_scope.
Local Open Scope nat_scope.

(** letters, digits and / . _ - + : @ % *)
Definition path_char (c : ascii) : bool :=
  let n := nat_of_ascii c in
  ((48 <=? n) && (n <=? 57)) || ((65 <=? n) && (n <=? 90)) || ((97 <=? n) && (n <=? 122))
  || existsb (Nat.eqb n) [47; 46; 95; 45; 43; 58; 64; 37].
Definition path_text (s : string) : Prop := forall c, In c (list_ascii_of_string s) -> path_char c = true.
(** the character does not occur *)
Definition lacks (c : ascii) (s : string) : Prop := ~ In c (list_ascii_of_string s).

(** every "work", found from the left, becomes "scratch" *)
Inductive scratched : string -> string -> Prop :=
| scr_nil : scratched "" ""
| scr_work s t : scratched s t -> scratched ("work" ++ s) ("scratch" ++ t)
| scr_other c s t : (forall s', String c s <> "work" ++ s') -> scratched s t -> scratched (String c s) (String c t).

(** an absolute path without doubled slashes, dots and final slash *)
Definition component (c : string) : Prop := c <> "" /\ c <> "." /\ c <> ".." /\ lacks "/" c.
Definition normal_root (root : string) : Prop :=
  exists l, l <> [] /\ Forall component l /\ root = "/" ++ String.concat "/" l.

(** the directory of a sampling distribution, and the result files in it *)
Definition rho_dir (root : string) (d r : Z) : string := root ++ "/data_set_" ++ dec d ++ "/rho_" ++ dec r ++ "/".
Definition result_name (P : Z) (T : Q) (id : Z) : string :=
  "P" ++ dec P ++ "_T" ++ fmt2 T ++ "_J" ++ dec id ++ "_data_points.npz".
Definition result_file (root : string) (d r P : Z) (T : Q) (id : Z) : string :=
  rho_dir root d r ++ "results/" ++ result_name P T id.

(** dictionaries of job parameters as JSON: every key once, no text with a comma, semicolon or quote *)
Definition plain_text (s : string) : Prop := lacks "," s /\ lacks ";" s /\ lacks "'" s.
Definition plain_dict (d : params) : Prop :=
  NoDup (map fst d) /\ forall k v, In (k, v) d -> plain_text k /\ match v with VStr s => plain_text s | _ => True end.

(** A job ready to be submitted: [d] is the dictionary after the set-up, the data set D and the sampling distribution R are below
    [root], [sroot] is the root on the scratch disk; n samples in nb blocks of bs, A states, N modes, P beads, temperature T;
    [be] and [ta] are the inverse temperature and its part per bead. *)
Record job_setting (repr : Q -> string) (fval : string -> Q) (inv_kT : json -> res json) (divide : json -> json -> res json) (w : world)
    (root sroot : string) (d : params) (D R : Z) (wait script : string) (cpus cores mem : Z)
    (P : Z) (T : Q) (n nb bs : nat) (A N : Z) (be ta : json) (cv cr : string) : Prop := {
  js_root : normal_root root /\ path_text root;
  js_scratch : scratched root sroot;
  js_script : path_text script;
  js_wait : wait = "" \/ wait = "--wait";
  js_repr : (forall q, float_text (repr q)) /\ fval (repr T) = T;
  js_plain : plain_dict d;
  js_ready : ready d D R (rho_dir sroot D R) (rho_dir root D R) cpus cores mem wait script;
  js_path : pget d "path_root" = Some (VStr root);
  js_n : pget d "number_of_samples" = Some (VInt (Z.of_nat n));
  js_nb : pget d "number_of_blocks" = Some (VInt (Z.of_nat nb));
  js_bs : pget d "block_size" = Some (VInt (Z.of_nat bs));
  js_A : pget d "number_of_states" = Some (VInt A);
  js_N : pget d "number_of_modes" = Some (VInt N);
  js_beta : pget d "beta" = None /\ inv_kT (JFloat (repr T)) = Ok be;
  js_tau : pget d "tau" = None /\ divide be (JInt P) = Ok ta;
  js_dirs : isdir w root = true /\ isdir w sroot = true;
  js_vib : texts w (root ++ "/data_set_" ++ dec D ++ "/parameters/coupled_model.json") = Some cv;
  js_rho : texts w (rho_dir root D R ++ "parameters/sampling_model.json") = Some cr;
  js_sizes : 0 < n /\ 0 < nb /\ nb * bs <= n }.
(** the object such a job computes with *)
Definition job_object (H : string -> string) (repr : Q -> string) (d : params) (root : string) (D R P : Z) (T : Q) (n nb bs : nat) (A N : Z)
    (be ta : json) (cv cr : string) : boxdata :=
  {| Json_Model.samples := JInt (Z.of_nat n); Json_Model.blocks := JInt (Z.of_nat nb); Json_Model.states := JInt A; Json_Model.beads := JInt P;
     Json_Model.modes := JInt N; Json_Model.temperature := JFloat (repr T); Json_Model.block_size := JInt (Z.of_nat bs);
     Json_Model.delta_beta := match pget d "delta_beta" with Some (VFloat q) => JFloat (repr q) | _ => JFloat "0.0002" end;
     Json_Model.id_data := JInt D; Json_Model.id_rho := JInt R; Json_Model.beta := be; Json_Model.tau := ta;
     Json_Model.path_vib_model := root ++ "/data_set_" ++ dec D ++ "/parameters/coupled_model.json";
     Json_Model.path_rho_model := rho_dir root D R ++ "parameters/sampling_model.json";
     Json_Model.hash_vib := H cv; Json_Model.hash_rho := H cr |}.
(** its file of results: the values of the nb * bs samples, then NaN *)
Definition job_results (H : string -> string) (v : nat -> fl * fl * fl * fl) (n nb bs : nat) (cv cr : string) : npz :=
  let vals := fun f : fl * fl * fl * fl -> fl => (map (fun i => f (v i)) (seq 0 (nb * bs)) ++ repeat NaN (n - nb * bs))%list in
  {| z_hash_vib := Some (H cv); z_hash_rho := Some (H cr); z_samples := Some n;
     z_rho := Some (vals (fun x => fst (fst (fst x)))); z_g := Some (vals (fun x => snd (fst (fst x))));
     z_gp := Some (vals (fun x => snd (fst x))); z_gm := Some (vals snd) |}.
(** the files [pre]* of a directory for the shell *)
Definition visible (name : string) : Prop := lacks "/" name /\ name <> "" /\ forall s, name <> "." ++ s.
