(** Further properties C47, C48, C72, C74: failures, texts and constants of the Julia wrapper. *)
From Coq Require Import QArith Reals Qreals Lra.
From Verif Require Import Common Common_Proofs PyStr_Model PyStr_Proofs Json_Model Json_Spec Json_Proofs Json5_Proofs Json6_Proofs FileName_Model FileName_Proofs FileStruct_Model FileStruct_Proofs Julia_Model Julia_Spec Julia_Proofs Julia2_Proofs Julia3_Proofs Julia_Props Julia2_Props.
From Verif Require Stats_Model.
Local Open Scope string_scope.
Local Open Scope nat_scope.

(** C47: a result file that holds JSON but no dictionary is never overwritten: the
    run ends before the program is started *)
Theorem C47_not_a_dictionary fs f t dst text :
  fs dst = Some text -> 1 < String.length text ->
  (forall v, loads text = Ok v -> (forall d, v <> JObj d) -> exists e, begin_run fs f t dst = Raise e /\ (e = TypeError \/ e = AttributeError) /\
     (e = AttributeError <-> exists s, v = JStr s /\ (contains "hash_vib" s = false \/ (t = Sampling /\ contains "hash_rho" s = false)))) /\
  (forall e, loads text = Raise e -> begin_run fs f t dst = Raise e).
Proof.
  intros E L. unfold begin_run, old_data. rewrite E, (proj2 (Nat.ltb_lt _ _) L). split.
  - intros v -> N. cbn [bind]. exists (not_a_dict t v).
    destruct v as [| | | |s| |d]; try (cbn [not_a_dict]; split; [reflexivity|]; split; [auto|]; split; [discriminate|intros (s & X & _); discriminate]).
    2:{ destruct (N d eq_refl). }
    split; [reflexivity|]. cbn [not_a_dict].
    destruct (contains "hash_vib" s) eqn:V; cbn [andb].
    + destruct t; cbn; try (split; [auto|]; split; [discriminate|]; intros (s' & X & [Y|[Y Z]]); [injection X as <-; congruence|discriminate]).
      destruct (contains "hash_rho" s) eqn:H; (split; [auto|]); split; try discriminate; try reflexivity.
      * intros (s' & X & [Y|[Y Z]]); injection X as <-; congruence.
      * intros _. exists s. auto.
    + split; [auto|]. split; [|reflexivity]. intros _. exists s. auto.
  - intros e ->. reflexivity.
Qed.
Print Assumptions C47_not_a_dictionary.
Example C47_not_a_dictionary_example :
  let fs (p : string) := if String.eqb p "/x" then Some (dumps (JStr "hash_vib")) else Some "[1]" in
  begin_run fs (build_fs "/" "/w" 1 0) Sampling "/x" = Raise AttributeError /\ begin_run fs (build_fs "/" "/w" 1 0) Original "/x" = Raise TypeError /\
  begin_run fs (build_fs "/" "/w" 1 0) Original "/y" = Raise TypeError.
Proof. vm_compute. auto. Qed.

(** C72: the texts of all commands; any other name is a KeyError *)
Theorem C72_command_texts bin name :
  command_named bin name =
  if String.eqb name "analytical coupled" then Ok ("julia " ++ bin ++ "analytical.jl --conf {F:} --beta {T:} --uncoupled")
  else if String.eqb name "analytical uncoupled" then Ok ("julia " ++ bin ++ "analytical.jl --conf {F:} --beta {T:}")
  else if String.eqb name "sos" then Ok ("julia " ++ bin ++ "sos.jl --conf {F:} --beta {T:} --basis-size {B:}")
  else if String.eqb name "trotter" then Ok ("julia " ++ bin ++ "trotter.jl --conf {F:} --beta {T:} --basis-size {B:} --num-links {P:}")
  else if String.eqb name "sampling" then Ok ("julia " ++ bin ++ "sampling.jl --conf {F:} --beta {T:} --num-links {P:} --num-samples {X:}")
  else if String.eqb name "finite difference sampling" then
    Ok ("julia " ++ bin ++ "sampling.jl --conf {F:} --beta {T:} --num-links {P:} --num-samples {X:} --dbeta {:} --sampling-beta {:} --samplings-conf {:}")
  else if String.eqb name "iterative" then Ok ("julia " ++ bin ++ "iterative_decomposition.jl --conf {F:} --max-iter {N:} --out-conf {P:} --out-vs {VS:}")
  else Raise KeyError.
Proof.
  unfold command_named, commands. cbn [dget String.concat].
  assert (A : forall a b c, ((a ++ b) ++ c)%string = (a ++ b ++ c)%string) by (induction a; cbn; intros; f_equal; auto).
  assert (J : forall s, ("julia " ++ bin ++ s)%string = (("julia " ++ bin) ++ s)%string) by (intros; rewrite A; reflexivity).
  repeat match goal with |- context [String.eqb name ?s] => destruct (String.eqb name s) end; try reflexivity; rewrite !A; cbn [String.append]; reflexivity.
Qed.
Print Assumptions C72_command_texts.
Example C72_command_texts_example : command_named "/b/" "sampling" = Ok "julia /b/sampling.jl --conf {F:} --beta {T:} --num-links {P:} --num-samples {X:}" /\
  command_named "/b/" "iterate" = Raise KeyError.
Proof. split; reflexivity. Qed.

(** C74: which command lines end with a usage message *)
Theorem C74_usage bin a :
  command_line bin a = None <->
  ~ ((0 <= c_id_rho a)%Z /\
     ((c_temperature a == 0)%Q \/ (0 < c_temperature a)%Q /\ (c_beta a = None \/ exists b, c_beta a = Some b /\ (b == 0)%Q)) /\
     (c_nbeads a = None \/ c_nbeads a = Some 0%Z \/
      exists n, c_nbeads a = Some n /\ (3 <= n)%Z /\ (c_method a = None \/ c_method a = Some "" \/ exists m, c_method a = Some m /\ contains "sampling" m = true)) /\
     (c_basis a = None \/ c_basis a = Some 0%Z \/
      exists n, c_basis a = Some n /\ (2 <= n)%Z /\ (c_method a = None \/ c_method a = Some "" \/ exists m, c_method a = Some m /\ (contains "trotter" m = true \/ contains "sos" m = true))) /\
     (c_method a = None \/ c_method a = Some "" \/
      exists m, c_method a = Some m /\ In m ["analytical coupled"; "analytical uncoupled"; "sos"; "trotter"; "sampling"; "finite difference sampling"; "iterative"])).
Proof.
  destruct a as [T beta rho nb B m]. unfold command_line. cbn [c_temperature c_beta c_id_rho c_nbeads c_basis c_method].
  match goal with |- _ <-> ~ ?X => assert (AC : accepted bin (mkCli T beta rho nb B m) = true <-> X) end.
  { unfold accepted. cbn [c_temperature c_beta c_id_rho c_nbeads c_basis c_method]. rewrite !andb_true_iff.
    assert (D1 : (0 <=? rho)%Z = true <-> (0 <= rho)%Z) by lia.
    assert (D2 : negb (given_Q (Some T) && given_Q beta) = true /\ negb (given_Q (Some T) && negb (negb (Qle_bool T 0))) = true <->
                 ((T == 0)%Q \/ (0 < T)%Q /\ (beta = None \/ exists b, beta = Some b /\ (b == 0)%Q))).
    { cbn [given_Q]. destruct (Qeq_bool T 0) eqn:E0; cbn.
      - apply Qeq_bool_iff in E0. tauto.
      - assert (N : ~ (T == 0)%Q) by (intros X; apply Qeq_bool_iff in X; congruence).
        rewrite !negb_involutive. destruct (Qle_bool T 0) eqn:EL.
        + apply Qle_bool_iff in EL. split; [intros [_ X]; discriminate|]. intros [X|[X _]]; [tauto|]. destruct (Qlt_not_le _ _ X EL).
        + assert (0 < T)%Q by (apply Qnot_le_lt; rewrite <- Qle_bool_iff; congruence).
          destruct beta as [b|]; cbn; [|tauto]. rewrite negb_involutive, Qeq_bool_iff. split; [intros [X _]; right; split; [auto|]; right; exists b; auto|].
          intros [X|[_ [X|(b' & X & Y)]]]; [tauto|discriminate|]. injection X as <-. auto. }
    assert (D4 : forall (p : string -> bool) (Pp : string -> Prop), (forall s, p s = true <-> Pp s) ->
      match given_method m with Some m => p m | None => true end = true <-> (m = None \/ m = Some "" \/ exists s, m = Some s /\ Pp s)).
    { intros p Pp H. destruct m as [[|c s]|]; cbn [given_method]; [tauto| |tauto]. rewrite H. split; [intros X; right; right; exists (String c s); auto|].
      intros [X|[X|(s' & X & Y)]]; try discriminate. injection X as <-. exact Y. }
    assert (D3 : forall (x : option Z) lo (b : bool) (Pb : Prop), (b = true <-> Pb) ->
      (if given_Z x then b && match x with Some n => (lo <=? n)%Z | None => true end else true) = true <->
      (x = None \/ x = Some 0%Z \/ exists n, x = Some n /\ (lo <= n)%Z /\ Pb)).
    { intros x lo b Pb H. destruct x as [n|]; cbn [given_Z]; [|tauto]. destruct (Z.eqb_spec n 0) as [->|N]; cbn [negb]; [tauto|].
      rewrite andb_true_iff, H. split; [intros [X Y]; right; right; exists n; split; [auto|]; split; [lia|exact X]|].
      intros [X|[X|(n' & X & Y & W)]]; [discriminate|injection X as X; contradiction|]. injection X as <-. split; [exact W|lia]. }
    rewrite (D3 nb 3%Z _ _ (D4 (contains "sampling") (fun s => contains "sampling" s = true) (fun s => iff_refl _))).
    rewrite (D3 B 2%Z _ _ (D4 (fun m => contains "trotter" m || contains "sos" m) (fun m => contains "trotter" m = true \/ contains "sos" m = true) (fun s => orb_true_iff _ _))).
    rewrite (D4 (fun m => dmem String.eqb (commands bin) m) (fun s => In s ["analytical coupled"; "analytical uncoupled"; "sos"; "trotter"; "sampling"; "finite difference sampling"; "iterative"])).
    2:{ intros s. unfold dmem, commands. cbn [dget]. split.
        - intros X. repeat match type of X with context [String.eqb s ?y] => destruct (String.eqb s y) eqn:?; [match goal with E : String.eqb s y = true |- _ => apply String.eqb_eq in E; subst s end; cbn; auto 12|] end. discriminate.
        - intros X. cbn in X. repeat destruct X as [<-|X]; try reflexivity. destruct X. }
    rewrite D1. rewrite <- D2. tauto. }
  rewrite <- AC. destruct (accepted bin _); split; congruence.
Qed.
Print Assumptions C74_usage.
Example C74_usage_example :
  command_line "/b/" (mkCli 300 None 0 None (Some 1%Z) (Some "sos")) = None /\
  command_line "/b/" (mkCli 300 None 0 (Some 12%Z) None (Some "sampling")) = Some (Raise OtherException) /\
  command_line "/b/" (mkCli 300 None 0 (Some 12%Z) None (Some "sos")) = None /\
  command_line "/b/" (mkCli 300 None 0 (Some 12%Z) (Some 40%Z) (Some "")) = Some (Raise OtherException).
Proof. repeat split. Qed.

(** C48: v[i] of a decoded JSON value with a number i *)
Theorem C48_at_index v i :
  (forall l, v = JArr l -> at_index v i = match nth_error l i with Some x => Ok x | None => Raise IndexError end) /\
  (forall s, v = JStr s -> at_index v i = match String.get i s with Some c => Ok (JStr (String c "")) | None => Raise IndexError end) /\
  (forall d, v = JObj d -> at_index v i = Raise KeyError) /\
  ((forall l, v <> JArr l) -> (forall s, v <> JStr s) -> (forall d, v <> JObj d) -> at_index v i = Raise TypeError).
Proof. split; [intros l ->; reflexivity|]. split; [intros s ->; reflexivity|]. split; [intros d ->; reflexivity|]. intros A B C. destruct v as [| | | |s|l|d]; try reflexivity; [destruct (B s eq_refl)|destruct (A l eq_refl)|destruct (C d eq_refl)]. Qed.
Print Assumptions C48_at_index.
Example C48_at_index_example : at_index (JStr "ab") 1 = Ok (JStr "b") /\ at_index (JStr "ab") 2 = Raise IndexError /\ at_index (JInt 1) 0 = Raise TypeError.
Proof. repeat split. Qed.

(** C47: the constant that turns a temperature into the beta of the command and beta
    into the key of the entry is that of the statistical analysis, 1.38064852e-23 J/K
    over 1.6021766208e-19 J/eV *)
Theorem C47_boltzman T :
  (boltzman == (138064852 # 10 ^ 31) / (16021766208 # 10 ^ 29))%Q /\
  Q2R boltzman = Stats_Model.boltzman /\
  (~ (T == 0)%Q -> Q2R (beta_of_T T) = Stats_Model.beta (Q2R T) /\ Q2R (Julia_Model.extract_T_from_beta T) = Stats_Model.extract_T_from_beta (Q2R T)).
Proof.
  assert (E : Q2R boltzman = Stats_Model.boltzman) by (unfold Q2R, boltzman, Stats_Model.boltzman; cbn [Qnum Qden]; lra).
  split; [reflexivity|]. split; [exact E|]. intros N.
  assert (N' : ~ (T * boltzman == 0)%Q) by (intros X; apply Qmult_integral in X; destruct X as [X|X]; [tauto|discriminate]).
  unfold beta_of_T, Julia_Model.extract_T_from_beta, Stats_Model.beta, Stats_Model.extract_T_from_beta. rewrite <- E, !Q2R_div, !Q2R_mult by exact N'.
  replace (Q2R 1) with 1%R by (unfold Q2R; cbn; lra). auto.
Qed.
Print Assumptions C47_boltzman.
Example C47_boltzman_example : ~ (300 == 0)%Q /\ fmt2 (Julia_Model.extract_T_from_beta (beta_of_T (29815 # 100))) = "298.15".
Proof. split; [discriminate|vm_compute; reflexivity]. Qed.
