(** Properties C48, C72-C75: readers of the results, commands, files, command line. *)
From Coq Require Import QArith.
From Verif Require Import Common Common_Proofs PyStr_Model PyStr_Proofs Json_Model Json_Spec Json_Proofs Json5_Proofs Json6_Proofs FileName_Model FileName_Proofs FileStruct_Model FileStruct_Proofs Julia_Model Julia_Spec Julia_Proofs Julia2_Proofs Julia3_Proofs Julia_Props.
Local Open Scope string_scope.
Local Open Scope nat_scope.

(** ** C48 *)
Lemma sub_ok v k x : sub v k = Ok x <-> exists l, v = JObj l /\ get l k = Some x.
Proof.
  unfold get. destruct v; cbn; try (split; [discriminate|intros (?&?&?); discriminate]).
  destruct (dget String.eqb l k) eqn:E; split.
  - intros X. inv X. eauto.
  - intros (l' & X & Y). inv X. congruence.
  - discriminate.
  - intros (l' & X & Y). inv X. congruence.
Qed.
(** C48: what load_analytic_data needs *)
Definition analytic_needs (fs : fsys string) (f : fstruct) (T : Q) (divide : json -> json -> res json) (z e c ap am : json) : Prop :=
  exists text d entry zp zm, fs (path_analytic_rho f) = Some text /\ loads text = Ok (JObj d) /\ carries Sampling d f /\
    get d (fmt2 T) = Some (JObj entry) /\ get entry "Z_sampling" = Some z /\ get entry "E_sampling" = Some e /\ get entry "Cv_sampling" = Some c /\
    get entry "Z_sampling+beta" = Some zp /\ get entry "Z_sampling-beta" = Some zm /\ divide z zp = Ok ap /\ divide z zm = Ok am.
Lemma entry_ok fs f T in_dict entry : analytic_entry fs f T = Ok (in_dict, entry) <->
  exists text d, fs (path_analytic_rho f) = Some text /\ loads text = Ok (JObj d) /\ in_dict = JObj d /\ carries Sampling d f /\ get d (fmt2 T) = Some entry.
Proof.
  unfold analytic_entry. destruct (fs (path_analytic_rho f)) as [text|]; [|split; [discriminate|intros (? & ? & ? & _); discriminate]].
  destruct (loads text) as [v|] eqn:L; cbn [bind]; [|split; [discriminate|intros (? & ? & E & X & _); inv E; congruence]].
  split.
  - intros E. destruct (sub v "hash_vib") as [hv|] eqn:HV; cbn [bind] in E; [|discriminate].
    destruct (same_hash (Some hv) (hash_vib f)) eqn:SV; cbn [passert bind] in E; [|discriminate].
    destruct (sub v "hash_rho") as [hr|] eqn:HR; cbn [bind] in E; [|discriminate].
    destruct (same_hash (Some hr) (hash_rho f)) eqn:SR; cbn [passert bind] in E; [|discriminate].
    destruct (mem v (fmt2 T)) as [m|]; cbn [bind] in E; [|discriminate]. destruct m; cbn [passert bind] in E; [|discriminate].
    destruct (sub v (fmt2 T)) as [en|] eqn:EN; cbn [bind] in E; [|discriminate].
    assert (v = in_dict /\ en = entry) by (split; congruence). destruct H; subst.
    apply sub_ok in HV, HR, EN. destruct HV as (d & -> & HV). destruct HR as (d' & X & HR). inv X. destruct EN as (d'' & X & EN). inv X.
    apply same_hash_spec in SV, SR. exists text, d''. split; auto. split; auto. split; auto. split; [split; congruence|auto].
  - intros (text' & d & E & L' & -> & [C1 C2] & G). assert (v = JObj d) by congruence. subst v. specialize (C2 eq_refl).
    unfold get in *. cbn [sub]. rewrite C1. cbn [bind]. rewrite (proj2 (same_hash_spec _ _) eq_refl). cbn [passert bind]. rewrite C2. cbn [bind].
    rewrite (proj2 (same_hash_spec _ _) eq_refl). cbn [passert bind mem]. unfold dmem. rewrite G. reflexivity.
Qed.
(** C48: load_analytic_data succeeds exactly if all of that is there *)
Theorem C48_load divide fs f T a a' :
  load_analytic_data divide fs f T a = (a', Ok tt) <->
  exists z e c ap am, analytic_needs fs f T divide z e c ap am /\
    a' = dset String.eqb (dset String.eqb (dset String.eqb (dset String.eqb (dset String.eqb a "Z" z) "E" e) "Cv" c) "alpha_plus" ap) "alpha_minus" am.
Proof.
  unfold load_analytic_data. split.
  - destruct (analytic_entry fs f T) as [[d0 entry]|] eqn:E; [|discriminate]. apply entry_ok in E. destruct E as (text & d & F & L & -> & C & G).
    unfold analytic_steps. destruct (sub entry "Z_sampling") as [z|] eqn:E1; [|discriminate]. destruct (sub entry "E_sampling") as [x|] eqn:E2; [|discriminate].
    destruct (sub entry "Cv_sampling") as [c|] eqn:E3; [|discriminate].
    destruct (sub entry "Z_sampling+beta") as [zp|] eqn:E4; cbn [bind]; [|discriminate]. destruct (divide z zp) as [ap|] eqn:D1; [|discriminate].
    destruct (sub entry "Z_sampling-beta") as [zm|] eqn:E5; cbn [bind]; [|discriminate]. destruct (divide z zm) as [am|] eqn:D2; [|discriminate].
    intros X. inv X. apply sub_ok in E1. destruct E1 as (l & -> & E1).
    assert (U : forall k v, sub (JObj l) k = Ok v -> get l k = Some v) by (intros k v H; apply sub_ok in H; destruct H as (l' & Q & H); inv Q; auto).
    exists z, x, c, ap, am. split; auto. exists text, d, l, zp, zm. repeat (split; auto).
  - intros (z & e & c & ap & am & (text & d & entry & zp & zm & F & L & C & G & E1 & E2 & E3 & E4 & E5 & D1 & D2) & ->).
    assert (EN : analytic_entry fs f T = Ok (JObj d, JObj entry)) by (apply entry_ok; eauto 8). rewrite EN. unfold analytic_steps, get in *. cbn [sub].
    rewrite E1, E2, E3. rewrite E4, E5. cbn [bind]. rewrite D1, D2. reflexivity.
Qed.
Print Assumptions C48_load.
(** C48: which exception, when the file is absent or does not belong to the models *)
Theorem C48_checks divide fs f T a :
  (fs (path_analytic_rho f) = None -> load_analytic_data divide fs f T a = (a, Raise AssertionError)) /\
  (forall text e, fs (path_analytic_rho f) = Some text -> loads text = Raise e -> load_analytic_data divide fs f T a = (a, Raise e)) /\
  (forall text d, fs (path_analytic_rho f) = Some text -> loads text = Ok (JObj d) ->
     (get d "hash_vib" = None -> load_analytic_data divide fs f T a = (a, Raise KeyError)) /\
     (get d "hash_vib" = Some (hash_value (hash_vib f)) -> get d "hash_rho" = None -> load_analytic_data divide fs f T a = (a, Raise KeyError)) /\
     (forall v, get d "hash_vib" = Some v -> v <> hash_value (hash_vib f) -> load_analytic_data divide fs f T a = (a, Raise AssertionError)) /\
     (forall v, get d "hash_vib" = Some (hash_value (hash_vib f)) -> get d "hash_rho" = Some v -> v <> hash_value (hash_rho f) ->
        load_analytic_data divide fs f T a = (a, Raise AssertionError)) /\
     (carries Sampling d f -> get d (fmt2 T) = None -> load_analytic_data divide fs f T a = (a, Raise AssertionError))).
Proof.
  assert (NS : forall v h, v <> hash_value h -> same_hash (Some v) h = false).
  { intros v h N. apply not_true_iff_false. rewrite same_hash_spec. congruence. }
  assert (YS : forall h, same_hash (Some (hash_value h)) h = true) by (intros h; apply same_hash_spec; auto).
  unfold load_analytic_data, analytic_entry, carries, get. split; [intros ->; reflexivity|]. split; [intros text e -> E; rewrite E; reflexivity|].
  intros text d F L. rewrite F, L. cbn [bind sub]. repeat split.
  - intros ->. reflexivity.
  - intros -> E2. cbn [bind]. rewrite YS. cbn [passert bind]. rewrite E2. reflexivity.
  - intros v -> N. cbn [bind]. rewrite NS by auto. reflexivity.
  - intros v -> E2 N. cbn [bind]. rewrite YS. cbn [passert bind]. rewrite E2. cbn [bind]. rewrite NS by auto. reflexivity.
  - intros [C1 C2] E. rewrite C1. cbn [bind]. rewrite YS. cbn [passert bind]. rewrite C2 by auto. cbn [bind]. rewrite YS. cbn [passert bind mem].
    unfold dmem. rewrite E. reflexivity.
Qed.
Print Assumptions C48_checks.
Example C48_load_example :
  let f := set_hash_rho (set_hash_vib (build_fs "/" "/w" 1 0) "hv") "hr" in
  let good := JObj [("hash_vib", JStr "hv"); ("hash_rho", JStr "hr"); ("300.00", JObj [("Z_sampling", JInt 6); ("E_sampling", JInt 2); ("Cv_sampling", JInt 1); ("Z_sampling+beta", JInt 3); ("Z_sampling-beta", JInt 2)])] in
  let fs (p : string) := if String.eqb p "/w/data_set_1/rho_0/parameters/analytic_results.json" then Some (dumps good) else None in
  let divide x y := match x, y with JInt a, JInt b => Ok (JInt (a / b)) | _, _ => Raise TypeError end in
  load_analytic_data divide fs f 300 [] = ([("Z", JInt 6); ("E", JInt 2); ("Cv", JInt 1); ("alpha_plus", JInt 2); ("alpha_minus", JInt 3)], Ok tt) /\
  load_analytic_data divide fs f 301 [] = ([], Raise AssertionError).
Proof. vm_compute. auto. Qed.

(** C48 is false: whatever the program prints, the entry stored by
    analytic_of_sampling_model lacks the names load_analytic_data needs *)
Theorem C48_refuted py_float bin fs f T bt out err fs' divide a :
  (forall s x, py_float s = Ok x -> float_text x) -> ~ (T == 0)%Q ->
  base_func py_float bin fs f Sampling (beta_of_T T) bt out err = (fs', Ok tt) ->
  load_analytic_data divide fs' f T a = (a, Raise KeyError).
Proof.
  intros FT NT E. destruct (base_result _ _ _ _ _ _ _ _ _ _ E) as (dst & cmd & d & _ & _ & TG & _ & S & _).
  destruct (C47_run _ _ _ _ _ _ _ _ _ _ _ _ FT E TG S) as (_ & d' & names & temp & S' & C & _ & R & G & _).
  rewrite C47_key in G by auto. cbn [target] in TG. assert (dst = path_analytic_rho f) by congruence. subst dst. clear TG.
  destruct S' as [[N _]|(text & F & [[_ ->]|[_ L]])]; [|destruct C; discriminate|].
  { destruct d'; [destruct C; discriminate|]. exfalso. clear - E N S. 
    destruct (base_result _ _ _ _ _ _ _ _ _ _ E) as (dst & cmd & d0 & names & temp & TG & CM & S0 & K & P & NN & R).
    rewrite (base_ok _ _ _ _ _ _ _ _ _ _ _ _ _ _ TG CM S0 K P NN R) in E. cbn [target] in TG. assert (dst = path_analytic_rho f) by congruence. subst dst.
    assert (X : fs' (path_analytic_rho f) <> None); [|congruence].
    match type of E with (?x, _) = _ => assert (fs' = x) by congruence end. subst fs'. unfold fs_write. rewrite String.eqb_refl. discriminate. }
  unfold load_analytic_data. rewrite (proj2 (entry_ok fs' f T (JObj d') (JObj temp))) by eauto 8.
  unfold analytic_steps. cbn [sub].
  assert (Z : get temp "Z_sampling" = None).
  { destruct (get temp "Z_sampling") eqn:X; auto. apply (proj2 R) in X. destruct X as (old & t & x & I & _). exfalso.
    revert I. clear. cbn. intuition discriminate. }
  unfold get in Z. rewrite Z. reflexivity.
Qed.
Print Assumptions C48_refuted.
Example C48_refuted_example :
  let f := ex_f "V1" "R1" in
  let r := base_func ex_float "/bin/" (files ex_w0) f Sampling (beta_of_T 300) "38.68" "Z_analytical: 1.5" "" in
  snd r = Ok tt /\ load_analytic_data (fun x y => Ok x) (fst r) f 300 [] = ([], Raise KeyError).
Proof. vm_compute. auto. Qed.

(** ** C72: the commands *)
(** C72: the program is started with the model file, beta and the sizes asked for *)
Theorem C72_commands bin f bt P B n : no_brace bin = true ->
  command bin f Sampling bt = Ok ("julia " ++ bin ++ "analytical.jl --conf " ++ path_rho_model f ++ " --beta " ++ bt) /\
  command bin f Original bt = Ok ("julia " ++ bin ++ "analytical.jl --conf " ++ path_orig_model f ++ " --beta " ++ bt ++ " --uncoupled") /\
  command bin f (Sos B) bt = Ok ("julia " ++ bin ++ "sos.jl --conf " ++ path_vib_model f ++ " --beta " ++ bt ++ " --basis-size " ++ dec B) /\
  command bin f (Trotter P B) bt =
    Ok ("julia " ++ bin ++ "trotter.jl --conf " ++ path_vib_model f ++ " --beta " ++ bt ++ " --basis-size " ++ dec B ++ " --num-links " ++ dec P) /\
  iterate_command bin f n =
    Ok ("julia " ++ bin ++ "iterative_decomposition.jl --conf " ++ path_vib_model f ++ " --max-iter " ++ dec n ++ " --out-conf " ++ path_iter_model f ++ " --out-vs " ++ path_iter_mat f).
Proof.
  intros NB.
  assert (G : forall s t args r, py_format (s ++ t) args = Ok r -> py_format (("julia " ++ bin ++ s) ++ t) args = Ok ("julia " ++ bin ++ r)).
  { intros s t args r E. rewrite !append_assoc. rewrite (format_literal args "julia " _ eq_refl), (format_literal args bin _ NB), E. reflexivity. }
  assert (GG : forall s t args r, py_format (s ++ t) args = Ok r -> py_format ((("julia " ++ bin) ++ s) ++ t) args = Ok ("julia " ++ bin ++ r)).
  { intros s t args r E. rewrite (append_assoc "julia "). apply G. auto. }
  repeat split; unfold command, iterate_command, command_named, commands; cbn [dget String.eqb Ascii.eqb Bool.eqb bind String.concat]; apply GG;
    cbn -[dec]; rewrite ?append_nil_r, ?append_assoc; reflexivity.
Qed.
Print Assumptions C72_commands.
Example C72_example : no_brace "/opt/julia/" = true /\
  command "/opt/julia/" (build_fs "/" "/w" 1 0) (Trotter 20 80) "38.68" =
    Ok "julia /opt/julia/trotter.jl --conf /w/data_set_1/parameters/coupled_model.json --beta 38.68 --basis-size 80 --num-links 20".
Proof. vm_compute. auto. Qed.

(** ** C73: one file per result *)
Definition result_part (r : Z) (t : task) : string :=
  match t with
  | Sampling => "rho_" ++ dec r ++ "/parameters/analytic_results.json"
  | Original => "parameters/original_analytic_results.json"
  | Sos B => "parameters/sos_B" ++ dec B ++ ".json"
  | Trotter P B => "parameters/trotter_P" ++ dec P ++ "_B" ++ dec B ++ ".json"
  end.
Lemma no_brace_dec z : no_brace (dec z) = true.
Proof.
  unfold no_brace. eapply all_chars_impl; [|apply dec_int_chars]. intros c Hc.
  destruct (Ascii.eqb_spec c "{"); [subst; discriminate|]. destruct (Ascii.eqb_spec c "}"); [subst; discriminate|]. auto.
Qed.
(** C73: where each result is kept *)
Theorem C73_where cwd root d r t : no_brace root = true ->
  target (build_fs cwd root d r) t = Ok (join root ("data_set_" ++ dec d ++ "/" ++ result_part r t)).
Proof.
  intros NB. pose proof (rho_attrs_ok cwd root d r) as HR. pose proof (vib_attrs_ok cwd root d r) as HV.
  unfold rho_attrs, rho_parts, vib_attrs, vib_parts in *. cbn [map] in HR, HV.
  assert (NV : no_brace (path_vib_params (build_fs cwd root d r)) = true).
  { pose proof (f_equal (fun l => nth 0 l "") HV) as E. cbn [nth] in E. rewrite E. unfold no_brace in *.
    rewrite join_rel by reflexivity. pose proof (no_brace_dec d) as ND. unfold no_brace in ND.
    unfold template_vib. rewrite !all_chars_app, NB, ND. destruct (ends_with_slash root); reflexivity. }
  destruct t; cbn [target result_part].
  - f_equal. etransitivity; [exact (f_equal (fun l => nth 5 l "") HR)|]. cbn [nth]. unfold template_rho, template_vib. rewrite !append_assoc. reflexivity.
  - f_equal. etransitivity; [exact (f_equal (fun l => nth 9 l "") HV)|]. cbn [nth]. unfold template_vib. rewrite !append_assoc. reflexivity.
  - change (t_sos_vib (build_fs cwd root d r)) with (path_vib_params (build_fs cwd root d r) ++ tpl_sos). rewrite format_sos by auto. f_equal.
    pose proof (f_equal (fun l => nth 0 l "") HV) as E. cbn [nth] in E. rewrite E, join_app by apply rel_vib. unfold template_vib. rewrite !append_assoc. reflexivity.
  - change (t_trotter_vib (build_fs cwd root d r)) with (path_vib_params (build_fs cwd root d r) ++ tpl_trotter). rewrite format_trotter by auto. f_equal.
    pose proof (f_equal (fun l => nth 0 l "") HV) as E. cbn [nth] in E. rewrite E, join_app by apply rel_vib. unfold template_vib. rewrite !append_assoc. reflexivity.
Qed.
Print Assumptions C73_where.
(** C73: two computations share a file only if they are of the same kind, with the
    same sizes, for the same data set and, for a sampling model, the same rho *)
Theorem C73_distinct cwd cwd' root d r d' r' t t' p : no_brace root = true ->
  target (build_fs cwd root d r) t = Ok p -> target (build_fs cwd' root d' r') t' = Ok p ->
  d = d' /\ t = t' /\ (t = Sampling -> r = r').
Proof.
  intros NB. rewrite !C73_where by auto. intros E1 E2. 
  assert (E : join root ("data_set_" ++ dec d ++ "/" ++ result_part r t) = join root ("data_set_" ++ dec d' ++ "/" ++ result_part r' t')) by congruence.
  clear E1 E2.
  apply join_rel_inj in E; try (cbn; discriminate).
  assert (U : forall x s, "data_set_" ++ dec x ++ "/" ++ s = template_vib x ++ s) by (intros; unfold template_vib; rewrite !append_assoc; auto).
  rewrite !U in E. apply template_vib_inj in E. destruct E as [-> E]. split; auto.
  destruct t, t'; cbn [result_part] in E; try discriminate E; (split; [|try discriminate]); auto.
  - intros _. apply append_inj_l in E. apply (split_class is_int_char) in E; auto using dec_int_chars. destruct E as (E & _). apply dec_inj in E. auto.
  - apply append_inj_l in E. apply (split_class is_int_char) in E; auto using dec_int_chars. destruct E as (E & _). apply dec_inj in E. subst. auto.
  - apply append_inj_l in E. apply (split_class is_int_char) in E; auto using dec_int_chars. destruct E as (E & _ & E').
    apply dec_inj in E. subst. change (("_B" ++ dec B ++ ".json") = ("_B" ++ dec B0 ++ ".json")) in E || idtac.
    injection E' as E'. apply (split_class is_int_char) in E'; auto using dec_int_chars. destruct E' as (E' & _). apply dec_inj in E'. subst. auto.
Qed.
Print Assumptions C73_distinct.
(** C73: no result is written over a model *)
Theorem C73_not_a_model cwd cwd' root d r d' r' t p : no_brace root = true ->
  target (build_fs cwd root d r) t = Ok p ->
  let f := build_fs cwd' root d' r' in
  ~ In p [path_vib_model f; path_rho_model f; path_orig_model f; path_har_model f; path_iter_model f; path_ortho_mat f].
Proof.
  intros NB. rewrite C73_where by auto. intros E f I.
  assert (p = join root ("data_set_" ++ dec d ++ "/" ++ result_part r t)) by congruence. subst p. clear E.
  pose proof (rho_attrs_ok cwd' root d' r') as HR. pose proof (vib_attrs_ok cwd' root d' r') as HV.
  unfold rho_attrs, rho_parts, vib_attrs, vib_parts in *. cbn [map] in HR, HV. fold f in HR, HV.
  assert (U : forall x s, "data_set_" ++ dec x ++ "/" ++ s = template_vib x ++ s) by (intros; unfold template_vib; rewrite !append_assoc; auto).
  assert (V : forall s, join root ("data_set_" ++ dec d ++ "/" ++ result_part r t) = join root (template_vib d' ++ s) -> result_part r t = s).
  { intros s E. rewrite U in E. apply join_rel_inj in E; try (cbn; discriminate). apply template_vib_inj in E. tauto. }
  assert (X : forall s, rel s -> result_part r t = "rho_" ++ dec r' ++ "/" ++ s -> s = "parameters/analytic_results.json").
  { intros s RS E. destruct t; try discriminate E. cbn [result_part] in E. apply append_inj_l in E.
    apply (split_class is_int_char) in E; auto using dec_int_chars. destruct E as (_ & _ & E). auto. }
  cbn [In] in I. destruct I as [I|[I|[I|[I|[I|[I|[]]]]]]]; symmetry in I.
  - rewrite (f_equal (fun l => nth 4 l "") HV : path_vib_model f = _) in I. apply V in I. destruct t; discriminate I.
  - rewrite (f_equal (fun l => nth 4 l "") HR : path_rho_model f = _) in I. cbn [nth] in I. unfold template_rho in I. rewrite !append_assoc in I.
    apply V in I. apply X in I; [discriminate I|cbn; discriminate].
  - rewrite (f_equal (fun l => nth 10 l "") HV : path_orig_model f = _) in I. apply V in I. destruct t; discriminate I.
  - rewrite (f_equal (fun l => nth 5 l "") HV : path_har_model f = _) in I. apply V in I. destruct t; discriminate I.
  - rewrite (f_equal (fun l => nth 6 l "") HV : path_iter_model f = _) in I. apply V in I. destruct t; discriminate I.
  - rewrite (f_equal (fun l => nth 11 l "") HV : path_ortho_mat f = _) in I. apply V in I. destruct t; discriminate I.
Qed.
Print Assumptions C73_not_a_model.
Example C73_example : no_brace "/w" = true /\
  target (build_fs "/" "/w" 3 2) Sampling = Ok "/w/data_set_3/rho_2/parameters/analytic_results.json" /\
  target (build_fs "/" "/w" 3 2) (Trotter 20 80) = Ok "/w/data_set_3/parameters/trotter_P20_B80.json".
Proof. vm_compute. auto. Qed.

(** ** C74: the command line *)
(** C74: only sums over states can be asked for on the command line *)
Theorem C74_command_line bin a act :
  command_line bin a = Some (Ok act) <->
  exists B, act = Kept (Sos B) /\ c_method a = Some "sos" /\ c_basis a = Some B /\ (B = 0 \/ 2 <= B)%Z /\
    (c_nbeads a = None \/ c_nbeads a = Some 0%Z) /\ (0 <= c_id_rho a)%Z /\ (0 < c_temperature a)%Q /\
    (c_beta a = None \/ exists b, c_beta a = Some b /\ (b == 0)%Q).
Proof.
  assert (GZ : forall x, given_Z x = false <-> x = None \/ x = Some 0%Z).
  { intros [z|]; cbn; [|intuition]. rewrite negb_false_iff, Z.eqb_eq. intuition congruence. }
  assert (GQ : forall x, given_Q x = false <-> x = None \/ exists b, x = Some b /\ (b == 0)%Q).
  { intros [q|]; cbn; [|intuition]. rewrite negb_false_iff, Qeq_bool_iff. split; [eauto|]. intros [|(b & E & H)]; [discriminate|]. inv E. auto. }
  destruct a as [T beta rho nb B m]. unfold command_line, main_action, accepted.
  cbn [c_temperature c_beta c_id_rho c_nbeads c_basis c_method].
  split.
  - match goal with |- (if ?x then _ else _) = _ -> _ => destruct x eqn:A; [|discriminate] end.
    destruct (Qeq_bool T 0) eqn:T0; [discriminate|]. intros E.
    rewrite !andb_true_iff in A. destruct A as [[[[[A1 A2] A3] A4] A5] A6].
    destruct m as [m|]; [|discriminate].
    assert (m = "sos").
    { destruct (String.eqb_spec m "iterate"); [subst; discriminate|]. destruct (String.eqb_spec m "analytical_original"); [subst; discriminate|].
      destruct (String.eqb_spec m "analytical_sampling"); [subst; discriminate|]. destruct (String.eqb_spec m "trotter_coupled"); [subst; discriminate|].
      destruct (String.eqb_spec m "sos"); auto. discriminate. }
    subst m. cbn [String.eqb Ascii.eqb Bool.eqb given_method] in *. destruct B as [B|]; [|discriminate]. injection E as <-. exists B. repeat split; auto.
    + cbn [given_Z] in A5. destruct (Z.eqb_spec B 0); [auto|]. right. cbn [negb] in A5. apply andb_true_iff in A5. lia.
    + apply GZ. destruct (given_Z nb); auto.
    + lia.
    + cbn [given_Q] in A3. rewrite T0 in A3. cbn in A3. apply negb_true_iff, negb_false_iff, negb_true_iff in A3. apply Qnot_le_lt. rewrite <- Qle_bool_iff. congruence.
    + cbn [given_Q] in A2. rewrite T0 in A2. cbn [negb andb] in A2. apply GQ. destruct (given_Q beta); auto.
  - intros (B' & -> & -> & -> & HB & HN & HR & HT & HBe). apply GZ in HN. apply GQ in HBe.
    assert (T0 : Qeq_bool T 0 = false) by (apply not_true_iff_false; rewrite Qeq_bool_iff; intros E; rewrite E in HT; apply (Qlt_irrefl 0); auto).
    assert (TL : Qle_bool T 0 = false) by (apply not_true_iff_false; rewrite Qle_bool_iff; apply Qlt_not_le; auto).
    cbn [given_Q]. rewrite T0, HN, HBe, TL. cbn [negb andb given_method String.eqb Ascii.eqb Bool.eqb].
    replace (0 <=? rho)%Z with true by (symmetry; apply Z.leb_le; auto). cbn [andb given_Z].
    replace (dmem String.eqb (commands bin) "sos") with true by reflexivity. 
    destruct (Z.eqb_spec B' 0); cbn [negb]; [reflexivity|]. replace (2 <=? B')%Z with true by (symmetry; apply Z.leb_le; lia). reflexivity.
Qed.
Print Assumptions C74_command_line.
Example C74_example : command_line "/j/" (mkCli 300 None 0 None (Some 80%Z) (Some "sos")) = Some (Ok (Kept (Sos 80))) /\
  command_line "/j/" (mkCli 300 None 0 None None (Some "iterate")) = None.
Proof. vm_compute. auto. Qed.
(** C74: a basis size of 0 passes the tests; every other method named in main,
    and beta with the default temperature, is refused *)
Theorem C74_refused bin T beta rho nb B m b :
  command_line bin (mkCli T beta rho nb B (Some m)) <> None ->
  ~ In m ["iterate"; "analytical_original"; "analytical_sampling"; "trotter_coupled"] /\
  (~ (b == 0)%Q -> ~ (T == 0)%Q -> command_line bin (mkCli T (Some b) rho nb B (Some m)) = None).
Proof.
  unfold command_line. intros H.
  match type of H with (if ?x then _ else _) <> _ => destruct x eqn:A; [|congruence] end. clear H. split.
  - unfold accepted in A. rewrite !andb_true_iff in A. destruct A as [_ A]. cbn [c_method] in A.
    intros [<-|[<-|[<-|[<-|[]]]]]; vm_compute in A; discriminate.
  - intros Hb HT. unfold accepted. cbn [c_temperature c_beta given_Q].
    replace (Qeq_bool T 0) with false by (symmetry; apply not_true_iff_false; rewrite Qeq_bool_iff; auto).
    replace (Qeq_bool b 0) with false by (symmetry; apply not_true_iff_false; rewrite Qeq_bool_iff; auto).
    cbn [negb andb]. rewrite !andb_false_r. reflexivity.
Qed.
Print Assumptions C74_refused.
(** C74: what is not refused but cannot be done *)
Theorem C74_fails bin a e : command_line bin a = Some (Raise e) <->
  accepted bin a = true /\
  (((c_temperature a == 0)%Q /\ e = ZeroDivisionError) \/
   (~ (c_temperature a == 0)%Q /\ c_method a = Some "sos" /\ c_basis a = None /\ e = TypeError) \/
   (~ (c_temperature a == 0)%Q /\ c_method a <> Some "sos" /\ e = OtherException)).
Proof.
  unfold command_line. destruct (accepted bin a) eqn:A; [|split; [discriminate|intuition discriminate]].
  unfold main_action. destruct (Qeq_bool (c_temperature a) 0) eqn:T0.
  { apply Qeq_bool_iff in T0. intuition congruence. }
  assert (N : ~ (c_temperature a == 0)%Q) by (rewrite <- Qeq_bool_iff; congruence).
  destruct (c_method a) as [m|] eqn:M; [|intuition congruence].
  assert (R : ~ In m ["iterate"; "analytical_original"; "analytical_sampling"; "trotter_coupled"]).
  { unfold accepted in A. rewrite !andb_true_iff in A. destruct A as [_ A]. rewrite M in A.
    intros [<-|[<-|[<-|[<-|[]]]]]; vm_compute in A; discriminate. }
  cbn [In] in R.
  destruct (String.eqb_spec m "iterate"); [exfalso; apply R; subst; tauto|]. destruct (String.eqb_spec m "analytical_original"); [exfalso; apply R; subst; tauto|].
  destruct (String.eqb_spec m "analytical_sampling"); [exfalso; apply R; subst; tauto|]. destruct (String.eqb_spec m "trotter_coupled"); [exfalso; apply R; subst; tauto|].
  destruct (String.eqb_spec m "sos"); [|intuition congruence]. subst. destruct (c_basis a); intuition congruence.
Qed.
Print Assumptions C74_fails.
Example C74_fails_example :
  command_line "/j/" (mkCli 300 None 0 (Some 5%Z) None (Some "sampling")) = Some (Raise OtherException) /\
  command_line "/j/" (mkCli 0 None 0 None None (Some "sos")) = Some (Raise ZeroDivisionError) /\
  command_line "/j/" (mkCli 300 None 0 None None (Some "sos")) = Some (Raise TypeError).
Proof. vm_compute. auto. Qed.

(** ** C75: results of sums over states for a sampling model *)
Definition listed (rho : list (string * json)) (k : string) (i : nat) (x : json) : Prop :=
  exists v, get rho k = Some v /\ ((exists l, v = JArr l /\ nth_error l i = Some x) \/
                                   (exists s c, v = JStr s /\ String.get i s = Some c /\ x = JStr (String c ""))).
Lemma listed_ok rho k i x : (do v <- sub (JObj rho) k; at_index v i) = Ok x <-> listed rho k i x.
Proof.
  unfold listed, get. cbn [sub]. destruct (dget String.eqb rho k) as [v|]; cbn [bind]; [|split; [discriminate|intros (? & ? & _); discriminate]].
  split.
  - intros E. exists v. split; auto. destruct v; try discriminate; cbn [at_index] in E.
    + right. destruct (String.get i s) eqn:G; [|discriminate]. inv E. eauto.
    + left. unfold item in E. destruct (nth_error l i) eqn:N; [|discriminate]. inv E. eauto.
  - intros (v' & E & H). inv E. destruct H as [(l & -> & N)|(s & c & -> & G & ->)]; cbn [at_index]; [unfold item; rewrite N|rewrite G]; auto.
Qed.
(** the first place of the list that holds an equal number *)
Definition first_at (num_eqb : json -> json -> bool) (T : json) (l : list json) (i : nat) : Prop :=
  exists y, nth_error l i = Some y /\ num_eqb T y = true /\ forall j z, j < i -> nth_error l j = Some z -> num_eqb T z = false.
Lemma index_ok num_eqb T l i : index_of num_eqb T l = Some i <-> first_at num_eqb T l i.
Proof.
  revert i. unfold first_at. induction l as [|y l IH]; intros i; cbn [index_of].
  - split; [discriminate|]. intros (y & E & _). destruct i; discriminate.
  - destruct (num_eqb T y) eqn:E.
    + split.
      * intros X. inv X. exists y. cbn. repeat split; auto. intros. lia.
      * intros (z & N & F & L). destruct i; auto. specialize (L 0 y). cbn in L. rewrite L in E by (auto; lia). discriminate.
    + destruct (index_of num_eqb T l) as [k|] eqn:K.
      * split.
        -- intros X. inv X. destruct (proj1 (IH k) eq_refl) as (z & N & F & L). exists z. cbn. repeat split; auto.
           intros [|j] x Hj; cbn; [congruence|]. apply L. lia.
        -- intros (z & N & F & L). destruct i as [|i]; cbn in N; [congruence|]. f_equal. f_equal.
           enough (Some k = Some i) by congruence. apply IH. exists z. repeat split; auto. intros j x Hj Nj. apply (L (Datatypes.S j)); auto. lia.
      * split; [discriminate|]. intros (z & N & F & L). destruct i as [|i]; cbn in N; [congruence|]. exfalso.
        enough (None = Some i) by discriminate. apply IH. exists z. repeat split; auto. intros j x Hj Nj. apply (L (Datatypes.S j)); auto. lia.
Qed.
(** C75: the five numbers stored are those at the first place of the temperature;
    the file is the one of the basis size *)
Theorem C75_load divide num_eqb fs cwd root d r B T a a' : no_brace root = true ->
  load_rho_sos_data divide num_eqb fs (build_fs cwd root d r) B T a = (a', Ok tt) <->
  exists text rho l i z e c zp zm ap am,
    fs (join root ("data_set_" ++ dec d ++ "/rho_" ++ dec r ++ "/parameters/sos_B" ++ dec B ++ ".json")) = Some text /\ loads text = Ok (JObj rho) /\
    get rho "temperature" = Some (JArr l) /\ first_at num_eqb T l i /\
    listed rho "Z_sampling" i z /\ listed rho "E_sampling" i e /\ listed rho "Cv_sampling" i c /\
    listed rho "Z_sampling+beta" i zp /\ listed rho "Z_sampling-beta" i zm /\ divide z zp = Ok ap /\ divide z zm = Ok am /\
    a' = dset String.eqb (dset String.eqb (dset String.eqb (dset String.eqb (dset String.eqb a "Z" z) "E" e) "Cv" c) "alpha_plus" ap) "alpha_minus" am.
Proof.
  intros NB. unfold load_rho_sos_data.
  assert (P : py_format (t_sos_rho (build_fs cwd root d r)) [("B:d", dec B)] =
    Ok (join root ("data_set_" ++ dec d ++ "/rho_" ++ dec r ++ "/parameters/sos_B" ++ dec B ++ ".json"))).
  { pose proof (rho_attrs_ok cwd root d r) as HR. unfold rho_attrs, rho_parts in HR. cbn [map] in HR.
    pose proof (f_equal (fun l => nth 0 l "") HR) as E. cbn [nth] in E.
    change (t_sos_rho (build_fs cwd root d r)) with (path_rho_params (build_fs cwd root d r) ++ tpl_sos). rewrite format_sos.
    - f_equal. rewrite E, join_app by apply rel_rho. unfold template_rho, template_vib. rewrite !append_assoc. reflexivity.
    - rewrite E. unfold no_brace in *. rewrite join_rel by reflexivity. pose proof (no_brace_dec d) as ND. pose proof (no_brace_dec r) as NR.
      unfold no_brace in ND, NR. unfold template_rho, template_vib. rewrite !all_chars_app, NB, ND, NR. destruct (ends_with_slash root); reflexivity. }
  rewrite P. cbn [bind].
  set (path := join root _). clearbody path. clear P.
  destruct (fs path) as [text|]; [|split; [discriminate|intros (? & ? & ? & ? & ? & ? & ? & ? & ? & ? & ? & ? & _); discriminate]].
  destruct (loads text) as [v|] eqn:L; cbn [bind];
    [|split; [discriminate|intros (? & ? & ? & ? & ? & ? & ? & ? & ? & ? & ? & E & L' & _); inv E; congruence]].
  split.
  - intros E. destruct (sub v "temperature") as [ts|] eqn:TS; cbn [bind] in E; [|discriminate].
    apply sub_ok in TS. destruct TS as (rho & -> & TS).
    destruct ts as [| | | | |l|]; try discriminate. destruct (index_of num_eqb T l) as [i|] eqn:I; [|discriminate].
    destruct (do v <- sub (JObj rho) "Z_sampling"; at_index v i) as [z|] eqn:E1; [|discriminate].
    destruct (do v <- sub (JObj rho) "E_sampling"; at_index v i) as [x|] eqn:E2; [|discriminate].
    destruct (do v <- sub (JObj rho) "Cv_sampling"; at_index v i) as [c|] eqn:E3; [|discriminate].
    destruct (sub (JObj rho) "Z_sampling+beta") as [v4|] eqn:S4; cbn [bind] in E; [|discriminate].
    destruct (at_index v4 i) as [zp|] eqn:A4; cbn [bind] in E; [|discriminate]. destruct (divide z zp) as [ap|] eqn:D1; [|discriminate].
    destruct (sub (JObj rho) "Z_sampling-beta") as [v5|] eqn:S5; cbn [bind] in E; [|discriminate].
    destruct (at_index v5 i) as [zm|] eqn:A5; cbn [bind] in E; [|discriminate]. destruct (divide z zm) as [am|] eqn:D2; [|discriminate].
    inv E. exists text, rho, l, i, z, x, c, zp, zm, ap, am. apply listed_ok in E1, E2, E3. rewrite <- index_ok.
    assert (listed rho "Z_sampling+beta" i zp) by (apply listed_ok; rewrite S4; auto).
    assert (listed rho "Z_sampling-beta" i zm) by (apply listed_ok; rewrite S5; auto). tauto.
  - intros (text' & rho & l & i & z & e & c & zp & zm & ap & am & F & L' & TS & I & E1 & E2 & E3 & E4 & E5 & D1 & D2 & ->).
    assert (v = JObj rho) by congruence. subst v. assert (TS' : sub (JObj rho) "temperature" = Ok (JArr l)) by (apply sub_ok; eauto). rewrite TS'. cbn [bind].
    apply index_ok in I. rewrite I. apply listed_ok in E1, E2, E3, E4, E5. rewrite E1, E2, E3.
    destruct (sub (JObj rho) "Z_sampling+beta") as [v4|]; cbn [bind] in E4 |- *; [|discriminate].
    destruct (sub (JObj rho) "Z_sampling-beta") as [v5|]; cbn [bind] in E5 |- *; [|discriminate]. rewrite E4. cbn [bind]. rewrite D1, E5. cbn [bind]. rewrite D2. reflexivity.
Qed.
Print Assumptions C75_load.
(** C75: a file that is missing or has no such temperature *)
Theorem C75_absent divide num_eqb fs cwd root d r B T a : no_brace root = true ->
  let path := join root ("data_set_" ++ dec d ++ "/rho_" ++ dec r ++ "/parameters/sos_B" ++ dec B ++ ".json") in
  let out := load_rho_sos_data divide num_eqb fs (build_fs cwd root d r) B T a in
  (fs path = None -> out = (a, Raise AssertionError)) /\
  (forall text rho l, fs path = Some text -> loads text = Ok (JObj rho) -> get rho "temperature" = Some (JArr l) ->
     (forall y, In y l -> num_eqb T y = false) -> out = (a, Raise ValueError)) /\
  (forall text rho, fs path = Some text -> loads text = Ok (JObj rho) -> get rho "temperature" = None -> out = (a, Raise KeyError)).
Proof.
  intros NB path out. subst out. unfold load_rho_sos_data.
  assert (P : py_format (t_sos_rho (build_fs cwd root d r)) [("B:d", dec B)] = Ok path).
  { unfold path. pose proof (rho_attrs_ok cwd root d r) as HR. unfold rho_attrs, rho_parts in HR. cbn [map] in HR.
    pose proof (f_equal (fun l => nth 0 l "") HR) as E. cbn [nth] in E.
    change (t_sos_rho (build_fs cwd root d r)) with (path_rho_params (build_fs cwd root d r) ++ tpl_sos). rewrite format_sos.
    - f_equal. rewrite E, join_app by apply rel_rho. unfold template_rho, template_vib. rewrite !append_assoc. reflexivity.
    - rewrite E. unfold no_brace in *. rewrite join_rel by reflexivity. pose proof (no_brace_dec d) as ND. pose proof (no_brace_dec r) as NR.
      unfold no_brace in ND, NR. unfold template_rho, template_vib. rewrite !all_chars_app, NB, ND, NR. destruct (ends_with_slash root); reflexivity. }
  rewrite P. cbn [bind]. clearbody path. clear P. repeat split.
  - intros ->. reflexivity.
  - intros text rho l -> L G N. rewrite L. unfold get in G. cbn [bind sub]. rewrite G. cbn [bind].
    replace (index_of num_eqb T l) with (@None nat); auto. clear - N. induction l as [|y l IH]; auto. cbn [index_of].
    rewrite N by (left; auto). rewrite <- IH; auto. intros z Hz. apply N. right. auto.
  - intros text rho -> L G. rewrite L. unfold get in G. cbn [bind sub]. rewrite G. reflexivity.
Qed.
Print Assumptions C75_absent.
Example C75_example :
  let rho := JObj [("temperature", JArr [JInt 250; JInt 300]); ("Z_sampling", JArr [JInt 1; JInt 6]); ("E_sampling", JArr [JInt 1; JInt 2]);
                   ("Cv_sampling", JArr [JInt 1; JInt 5]); ("Z_sampling+beta", JArr [JInt 1; JInt 3]); ("Z_sampling-beta", JArr [JInt 1; JInt 2])] in
  let fs (p : string) := if String.eqb p "/w/data_set_1/rho_0/parameters/sos_B80.json" then Some (dumps rho) else None in
  let divide x y := match x, y with JInt a, JInt b => Ok (JInt (a / b)) | _, _ => Raise TypeError end in
  let eqb x y := match x, y with JInt a, JInt b => Z.eqb a b | _, _ => false end in
  load_rho_sos_data divide eqb fs (build_fs "/" "/w" 1 0) 80 (JInt 300) [] =
    ([("Z", JInt 6); ("E", JInt 2); ("Cv", JInt 5); ("alpha_plus", JInt 2); ("alpha_minus", JInt 3)], Ok tt) /\
  load_rho_sos_data divide eqb fs (build_fs "/" "/w" 1 0) 80 (JInt 310) [] = ([], Raise ValueError).
Proof. vm_compute. auto. Qed.
