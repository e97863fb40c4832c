(** C91, C92, C94, C96: which errors are raised, and what is read at the end of a file *)
From Coq Require Import QArith Lia.
From Verif Require Import Common Common_Proofs PyStr_Model PyStr_Proofs FileName_Model FileName_Proofs FileStruct_Model Json_Model FileSearch_Model FileSearch_Spec FileSearch_Proofs FileSearch_Props
  Auto_Spec Zmat_Spec Zmat_Proofs Orbital2_Proofs Orbital_Props Plot_Spec Plot_Model Plot4_Proofs Plot_Props ModelOp_Model ModelH_Model ModelH_Props Submit2_Model.
Local Open Scope string_scope.
Local Open Scope list_scope.
Local Open Scope nat_scope.

Section Values.
  Variable F : Type.
  Variable nan : F.
  Variable of_int : Z -> res F.
  Variable of_repr : string -> F.
  Variable of_text : string -> res F.
  Variable mul : F -> F -> F.

  (** C91: a key that is not a field, a list and a dictionary can not be stored *)
  Theorem C91_errors e key v kvs : ~ In key ["hash_vib"; "hash_rho"] ->
    (~ In key field_names -> fill F nan of_int of_repr of_text (JObj ((key, v) :: kvs)) e = Raise ValueError) /\
    (In key field_names -> forall l, v = JArr l -> fill F nan of_int of_repr of_text (JObj ((key, v) :: kvs)) e = Raise ValueError) /\
    (In key field_names -> forall l, v = JObj l -> fill F nan of_int of_repr of_text (JObj ((key, v) :: kvs)) e = Raise TypeError).
  Proof.
    intros NH. unfold fill. cbn [for_res fst snd].
    assert (H : (String.eqb key "hash_vib" || String.eqb key "hash_rho")%bool = false).
    { apply Bool.orb_false_iff. split; apply String.eqb_neq; intros ->; apply NH; [left|right; left]; reflexivity. }
    rewrite H. unfold set_field.
    assert (Q : existsb (String.eqb key) field_names = true <-> In key field_names).
    { rewrite existsb_exists. split; [intros (x & I & E); apply String.eqb_eq in E; subst; exact I|intros I; exists key; split; [exact I|apply String.eqb_refl]]. }
    destruct (existsb (String.eqb key) field_names).
    - split; [intros N; destruct N; apply Q; reflexivity|]. split; intros _ l ->; reflexivity.
    - split; [reflexivity|]. split; intros I; apply Q in I; discriminate.
  Qed.
  (** C92: the first temperature that is missing, or whose value is no number *)
  Theorem C92_errors p rho g T r : lst_T p = T :: r ->
    (dget String.eqb rho (fmt2 T) = None -> scale_by_rho F of_int of_repr mul p rho g = Raise KeyError) /\
    (forall l x, dget String.eqb rho (fmt2 T) = Some (JObj l) -> dget String.eqb l "Z_sampling" = Some x -> x = JNull \/ (exists s, x = JStr s) \/ (exists a, x = JArr a) \/ (exists o, x = JObj o) ->
       scale_by_rho F of_int of_repr mul p rho g = Raise TypeError).
  Proof.
    intros L. unfold scale_by_rho. rewrite L. split.
    - intros N. cbn. unfold value_at. rewrite N. reflexivity.
    - intros l x S1 S2 C. cbn. unfold value_at. rewrite S1. cbn [sub]. rewrite S2. cbn [bind]. destruct C as [->|[(s & ->)|[(a & ->)|(o & ->)]]]; reflexivity.
  Qed.
  (** C94: when all modes are symmetric the file may end after the third line *)
  Theorem C94_short h1 h2 a ws (py_float : string -> res F) (v : string -> F) arr :
    worded a ws -> (forall w, In w ws -> py_float w = Ok (v w)) -> length arr = length ws ->
    extract_normal_mode_frequencies F py_float [h1; h2; a] arr (Z.of_nat (length ws)) = Ok (map v ws, []).
  Proof.
    intros W H L. unfold extract_normal_mode_frequencies. cbn [next_line]. rewrite (worded_sound _ _ W), slice_in by lia. rewrite (floats_ok F py_float ws v H). cbn [bind].
    unfold assign at 1. rewrite map_length, Nat.eqb_refl. cbn [bind]. change (words "") with (@nil string). cbn [map_res bind]. unfold assign. rewrite app_length, map_length, skipn_length.
    replace (length ws + (length arr - length ws) - length ws) with 0 by lia. cbn [length Nat.eqb bind]. rewrite (skipn_all2 arr) by lia. rewrite !app_nil_r, <- (map_length v ws), firstn_all. reflexivity.
  Qed.
End Values.

(** C94: the text of the energies is what follows the line of the first mark, up to the second *)
Theorem C94_energies_text decodes d i j n :
  first_at d "Reference Hamiltonian" i -> first_at d "Gradients of heff along normal modes" j ->
  i <= n -> nth_error d n = Some (ascii_of_nat 10) -> (forall q, i <= q < n -> nth_error d q <> Some (ascii_of_nat 10)) -> n < j ->
  (decodes (firstn (j - S n) (skipn (S n) d)) = true -> extract_energies decodes d = Raise NameError) /\
  (decodes (firstn (j - S n) (skipn (S n) d)) = false -> extract_energies decodes d = Raise ValueError).
Proof.
  intros A B I O N J. unfold extract_energies. rewrite (region_ok _ _ _ _ _ A B). cbn [bind fst snd]. rewrite Nat2Z.id.
  assert (OC : forall q, occurs_at newline d q <-> nth_error d q = Some (ascii_of_nat 10)).
  { intros q. split.
    - intros (a & b & -> & <-). rewrite nth_error_app2, Nat.sub_diag by lia. reflexivity.
    - intros H. apply nth_error_split in H. destruct H as (a & b & -> & <-). exists a, b. split; reflexivity. }
  assert (R : readline (mkMap d i) = mkMap d (S n)).
  { unfold readline. cbn [pos data]. pose proof (mfind_spec (mkMap d i) newline i (length d) (or_introl (first_in _ _ _ A))) as G. cbv zeta in G. cbn [data] in G. unfold msize. cbn [data].
    destruct G as [[E G]|(p & E & P1 & P2 & P3 & P4)].
    - exfalso. apply (G n I); [|apply OC; exact O]. assert (n < length d) by (apply nth_error_Some; congruence). cbn. lia.
    - rewrite E. destruct (Z.ltb_spec (Z.of_nat p) 0); [lia|]. rewrite Nat2Z.id. f_equal. f_equal.
      destruct (Nat.lt_trichotomy p n) as [L|[L|L]]; [exfalso; apply (N p); [lia|apply OC; exact P3]|exact L|exfalso; apply (P4 n); [lia|apply OC; exact O]]. }
  rewrite R. cbn [pos]. unfold mread. cbn [pos data]. destruct (Z.ltb_spec (Z.of_nat j - Z.of_nat (S n)) 0); [lia|].
  replace (Z.to_nat (Z.of_nat j - Z.of_nat (S n))) with (j - S n) by lia.
  split; intros ->; reflexivity.
Qed.
(** C96: a job succeeds in looking up its last function exactly for the functions of the module *)
Theorem C96_module name (call : fsys string -> fsys string * res unit) fs :
  let known := ["parse_ouput"; "convert_keys"; "compute"; "validate_old_rho_data"; "validate_old_model_data"; "base_func"; "analytic_wrapper";
   "analytic_of_sampling_model"; "analytic_of_original_coupled_model"; "sos_wrapper"; "sos_of_coupled_model"; "trotter_wrapper";
   "trotter_of_coupled_model"; "iterate_method"; "prepare_julia"; "construct_command_dictionary"; "main"] in
  (In name known -> last_statement name call fs = call fs) /\ (~ In name known -> last_statement name call fs = (fs, Raise AttributeError)).
Proof.
  intros known. unfold last_statement.
  assert (Q : existsb (String.eqb name) julia_wrapper_names = true <-> In name known).
  { rewrite existsb_exists. change known with julia_wrapper_names. split; [intros (x & I & E); apply String.eqb_eq in E; subst; exact I|intros I; exists name; split; [exact I|apply String.eqb_refl]]. }
  destruct (existsb (String.eqb name) julia_wrapper_names).
  - split; [reflexivity|]. intros N. destruct N. apply Q. reflexivity.
  - split; [|reflexivity]. intros I. apply Q in I. discriminate.
Qed.

(** ** examples *)
Example C91_errors_ex : ~ In "Zz" ["hash_vib"; "hash_rho"] /\ ~ In "Zz" field_names /\ In "Z" field_names.
Proof. split; [cbn; intuition discriminate|]. split; [cbn; intuition discriminate|cbn; auto]. Qed.
Example C92_errors_ex : lst_T (mkParams [5%Z] [300%Q] [7%Z]) = [300%Q] /\ dget String.eqb [("200.00", JNull)] (fmt2 300) = None /\
  dget String.eqb [("300.00", JObj [("Z_sampling", JStr "1.5")])] (fmt2 300) = Some (JObj [("Z_sampling", JStr "1.5")]).
Proof. repeat split; vm_compute; reflexivity. Qed.
Example C94_short_ex : extract_normal_mode_frequencies string (fun w => Ok w) ["h"; "h"; "0.1  0.2"] ["0"; "0"] 2 = Ok (["0.1"; "0.2"], []).
Proof. vm_compute. reflexivity. Qed.
Definition ex_energies : string := "x Reference Hamiltonian" ++ String (ascii_of_nat 10) ("1 2" ++ String (ascii_of_nat 10) "Gradients of heff along normal modes").
Example C94_energies_text_ex : first_at (list_ascii_of_string ex_energies) "Reference Hamiltonian" 2 /\ nth_error (list_ascii_of_string ex_energies) 23 = Some (ascii_of_nat 10) /\
  extract_energies (fun b => Nat.eqb (List.length b) 4) (list_ascii_of_string ex_energies) = Raise NameError.
Proof.
  split; [|split; vm_compute; reflexivity]. split.
  - exists (list_ascii_of_string "x "). eexists. split; [reflexivity|reflexivity].
  - intros q Q (a & b & E & L). destruct q as [|[|q]]; [| |lia]; destruct a as [|c [|c' a]]; try discriminate L; cbn in E; discriminate E.
Qed.

Print Assumptions C91_errors.
Print Assumptions C92_errors.
Print Assumptions C94_short.
Print Assumptions C94_energies_text.
Print Assumptions C96_module.
