(** The files of the analysis of an example (C100), in words of paths only *)
From Coq Require Import QArith.
From Verif Require Import Common PyStr_Model FileName_Model FileStruct_Model Json_Model Julia_Model Results_Model Analysis_Model Analysis_Proofs Analysis_Props Setup_Spec.
Local Open Scope string_scope.
Local Open Scope nat_scope.

(** the directory with the samples and the analyses of a sampling model *)
Definition results_at (root : string) (d r : Z) : string := join root ("data_set_" ++ dec d ++ "/rho_" ++ dec r ++ "/results/").
(** its exact results *)
Definition analytic_at (root : string) (d r : Z) : string := join root ("data_set_" ++ dec d ++ "/rho_" ++ dec r ++ "/parameters/analytic_results.json").
(** a path below the results directory *)
Definition below (root : string) (d r : Z) (p : string) : Prop := exists x, p = results_at root d r ++ x.
(** the FileStructure with the hashes of the two model files *)
Definition known (cwd root : string) (d r : Z) (hv hr : string) : fstruct := set_hash_rho (set_hash_vib (build_fs cwd root d r) hv) hr.

Section Surveyed.
  Variable so : list string -> list string.
  Variable dv : json -> json -> res json.
  Variable op : analysis -> string -> Q -> result -> list (string * json) -> res (list (string * json)).
  Variable H : string -> string.
  Variable npz : files.
  Variable ls : string -> list string.
  (** for every bead count and every temperature there is the analysis [k] with the method [m] *)
  Definition all_saved (cwd root : string) (k : analysis) (m : string) (fs fs' : fsys string) (d r : Z) : Prop :=
    exists cv cr, fs (vib_of root d) = Some cv /\ fs (rho_of root d r) = Some cr /\
      forall l, results_dir (results_at root d r) (ls (results_at root d r)) l ->
      forall P T J P' T' J', In (P, T, J) l -> In (P', T', J') l ->
        exists t path text, (t == hundredths T' # 100)%Q /\
          saved_for so dv op npz fs (known cwd root d r (H cv) (H cr)) (H cv) (H cr) (ls (results_at root d r)) k m P t path text /\ fs' path = Some text.
  (** no file below the results directory has been changed, other than by the analysis [k] with the method [m] *)
  Definition only_saved (cwd root : string) (k : analysis) (m : string) (fs fs' : fsys string) (d r : Z) : Prop :=
    exists cv cr, fs (vib_of root d) = Some cv /\ fs (rho_of root d r) = Some cr /\
      forall l, results_dir (results_at root d r) (ls (results_at root d r)) l ->
      forall p, below root d r p -> fs' p = fs p \/ exists P t text, occurs l P t /\
          saved_for so dv op npz fs (known cwd root d r (H cv) (H cr)) (H cv) (H cr) (ls (results_at root d r)) k m P t p text /\ fs' p = Some text.
End Surveyed.
