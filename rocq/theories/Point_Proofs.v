(** Proofs about the re-weighting of a sampling model. *)
From Coq Require Import Reals Lra.
From Verif Require Import Common Common_Proofs Arr_Model Arr_Proofs ModelIO_Model ModelIO_Spec ModelIO_Proofs ModelIO2_Proofs Point_Model Pimc_Spec Point_Spec.
Local Open Scope R_scope.

Lemma Sum_S n f : Sum (S n) f = Sum n f + f n.
Proof.
  unfold Sum. rewrite seq_S, map_app, fold_right_app. cbn [map fold_right plus].
  generalize (map f (seq 0 n)). induction l; cbn [fold_right]; [lra|rewrite IHl; lra].
Qed.
Lemma Sum_0 f : Sum 0 f = 0. Proof. reflexivity. Qed.
Lemma total_Sum n f : total n f = Sum n f.
Proof. induction n; cbn [total]; [reflexivity|rewrite Sum_S, IHn; reflexivity]. Qed.
Lemma Sum_ext n f g : (forall i, (i < n)%nat -> f i = g i) -> Sum n f = Sum n g.
Proof. induction n; intros H; [reflexivity|]. rewrite !Sum_S, IHn, H by (intros; try apply H; lia). reflexivity. Qed.
Lemma Sum_scal n c f : Sum n (fun i => c * f i) = c * Sum n f.
Proof. induction n; [rewrite !Sum_0; lra|]. rewrite !Sum_S, IHn. lra. Qed.
Lemma Sum_le n f g : (forall i, (i < n)%nat -> f i <= g i) -> Sum n f <= Sum n g.
Proof. induction n; intros H; [rewrite !Sum_0; lra|]. rewrite !Sum_S. pose proof (H n ltac:(lia)). pose proof (IHn ltac:(intros; apply H; lia)). lra. Qed.

Lemma fold_min l x : In (fold_left Rmin l x) (x :: l) /\ forall y, In y (x :: l) -> fold_left Rmin l x <= y.
Proof.
  revert x. induction l as [|z l IH]; intros x; cbn [fold_left].
  - split; [left; reflexivity|]. intros y [<-|[]]. lra.
  - destruct (IH (Rmin x z)) as [I L]. split.
    + destruct I as [I|I]; [|right; right; exact I]. rewrite <- I. unfold Rmin. destruct (Rle_dec x z); [left|right; left]; reflexivity.
    + pose proof (L (Rmin x z) (or_introl eq_refl)) as M. intros y [<-|[<-|Y]].
      * pose proof (Rmin_l x z). lra.
      * pose proof (Rmin_r x z). lra.
      * apply L. right. exact Y.
Qed.

Lemma for_res_collect {X Y} (g : X -> res Y) (h : X -> Y) l acc :
  (forall x, In x l -> g x = Ok (h x)) ->
  for_res (fun acc x => do s <- g x; Ok (acc ++ [s])) l acc = Ok (acc ++ map h l).
Proof.
  revert acc. induction l as [|x l IH]; intros acc H; cbn [for_res map]; [rewrite app_nil_r; reflexivity|].
  rewrite (H x (or_introl eq_refl)). cbn [bind]. rewrite IH by (intros; apply H; right; assumption). rewrite <- app_assoc. reflexivity.
Qed.

Lemma nth_list_prod s n A a b : (a < n)%nat -> (b < A)%nat ->
  nth_error (list_prod (seq s n) (seq 0 A)) (a * A + b) = Some ((s + a)%nat, b).
Proof.
  revert s a. induction n as [|n IH]; intros s a Ha Hb; [lia|]. cbn [seq list_prod].
  destruct a as [|a].
  - rewrite nth_error_app1 by (rewrite map_length, seq_length; cbn; lia).
    rewrite nth_error_map, nth_error_seq by lia. cbn [option_map]. f_equal. f_equal; lia.
  - rewrite nth_error_app2 by (rewrite map_length, seq_length; cbn; lia).
    rewrite map_length, seq_length. replace (Datatypes.S a * A + b - A)%nat with (a * A + b)%nat by (cbn; lia).
    rewrite IH by lia. f_equal. f_equal. lia.
Qed.
Lemma nth_pairs (h : nat * nat -> R) A a b : (a < A)%nat -> (b < A)%nat ->
  nth (a * A + b) (map h (list_prod (seq 0 A) (seq 0 A))) 0 = h (a, b).
Proof.
  intros Ha Hb. erewrite nth_error_nth; [reflexivity|]. rewrite nth_error_map, nth_list_prod by assumption. reflexivity.
Qed.

Lemma eigenvalue_ext A m m' x : (forall i j, (i < A)%nat -> (j < A)%nat -> m i j = m' i j) -> eigenvalue A m x -> eigenvalue A m' x.
Proof.
  intros E (v & N & H). exists v. split; [exact N|]. intros i Hi. rewrite <- H by assumption. apply Sum_ext. intros j Hj. rewrite E by assumption. reflexivity.
Qed.
Lemma least_ext A m m' x : (forall i j, (i < A)%nat -> (j < A)%nat -> m i j = m' i j) -> least_eigenvalue A m x -> least_eigenvalue A m' x.
Proof.
  intros E [H L]. split; [eapply eigenvalue_ext; eauto|]. intros y Y. apply L. eapply eigenvalue_ext; [|exact Y]. intros; symmetry; apply E; assumption.
Qed.
Lemma least_unique A m x y : least_eigenvalue A m x -> least_eigenvalue A m y -> x = y.
Proof. intros [X LX] [Y LY]. pose proof (LX _ Y). pose proof (LY _ X). lra. Qed.

Lemma close_to_zero_spec a : close_to_zero a = true <-> forall x, In x (data a) -> Rabs x <= / 100000000.
Proof.
  unfold close_to_zero. rewrite forallb_forall. rewrite Rabs_R0. split; intros H x Hx; specialize (H x Hx).
  - destruct (Rle_dec _ _) as [L|]; [|discriminate]. replace (x - 0) with x in L by lra. lra.
  - destruct (Rle_dec _ _) as [L|L]; [reflexivity|]. exfalso. apply L. replace (x - 0) with x by lra. lra.
Qed.

Lemma dset_same (d : mdict R) k v : mget d k = Some v -> mset d k v = d.
Proof.
  unfold mget, mset. induction d as [|[k' v'] d IH]; cbn; intros H; [discriminate|].
  destruct (key_eqb k k') eqn:K.
  - inv H. apply key_eqb_eq in K. subst. reflexivity.
  - rewrite IH by exact H. reflexivity.
Qed.

Section P.
  Variable vint : R -> res Z.
  Variable eigvalsh : nat -> (nat -> nat -> R) -> list R.
  Notation valid := (valid vint).

  Lemma valid_arr k A N d m a : valid k A N d -> has d (KV m) (PArr a) -> forall s, spec_shape k A N m = Some s -> map Z.of_nat (shape a) = s.
  Proof. intros [_ V] H s S. destruct (V m _ s H S) as (b & E & B). injection E as <-. exact B. Qed.
  Lemma valid_is_arr k A N d m v s : valid k A N d -> has d (KV m) v -> spec_shape k A N m = Some s -> exists a, v = PArr a.
  Proof. intros [_ V] H S. destruct (V m _ s H S) as (b & E & B). exists b. exact E. Qed.

  Lemma no_quadratic_ok k A N d : dict_ok d -> valid k A N d -> no_quad d -> no_quadratic d = Ok tt.
  Proof.
    intros [ND _] Hv Q. unfold no_quadratic. destruct (mget d (KV G2_)) as [v|] eqn:E; [|reflexivity].
    apply mget_has in E; [|exact ND]. destruct (valid_is_arr _ _ _ _ _ _ _ Hv E eq_refl) as [a ->].
    replace (close_to_zero a) with true; [reflexivity|]. symmetry. apply close_to_zero_spec. intros x Hx. eapply Q; eauto.
  Qed.
  Lemma no_quadratic_raise k A N d : dict_ok d -> valid k A N d -> ~ no_quad d -> no_quadratic d = Raise OtherException.
  Proof.
    intros [ND _] Hv Q. unfold no_quadratic. destruct (mget d (KV G2_)) as [v|] eqn:E.
    - apply mget_has in E; [|exact ND]. destruct (valid_is_arr _ _ _ _ _ _ _ Hv E eq_refl) as [a ->].
      destruct (close_to_zero a) eqn:C; [|reflexivity]. exfalso. apply Q. intros b x Hb Hx.
      pose proof (has_fun _ _ _ _ ND E Hb) as EQ. injection EQ as <-. apply (proj1 (close_to_zero_spec a) C x Hx).
    - exfalso. apply Q. intros b x Hb Hx. apply mget_has in Hb; [|exact ND]. unfold mget in *. congruence.
  Qed.

  Lemma stored_entry d m a idx x : dict_ok d -> has d (KV m) (PArr a) -> stored d m idx x -> x = entry a idx.
  Proof.
    intros [ND _] Ha Hs. destruct Hs as [b v Hb G|Hm]; [|exfalso; eapply Hm; eauto].
    pose proof (has_fun _ _ _ _ ND Ha Hb) as E. injection E as <-. unfold entry. rewrite G. reflexivity.
  Qed.
  Lemma stored_zero d m idx x : dict_ok d -> mget d (KV m) = None -> stored d m idx x -> x = 0.
  Proof.
    intros [ND _] Hn Hs. destruct Hs as [b v Hb G|Hm]; [|reflexivity].
    apply mget_has in Hb; [|exact ND]. congruence.
  Qed.
  Lemma entry_zeros s idx : inb (map Z.to_nat s) idx -> entry (afull (map Z.to_nat s) 0) idx = 0.
  Proof. intros I. unfold entry, afull. rewrite aget_abuild by exact I. reflexivity. Qed.

  (** an array that is zero where the parameter is missing *)
  Lemma filled k A N d m s (x : list nat -> R) : dict_ok d -> valid k A N d -> spec_shape k A N m = Some s -> Forall (fun z => (0 <= z)%Z) s ->
    (forall idx, inb (map Z.to_nat s) idx -> stored d m idx (x idx)) ->
    exists a, (do z <- np_zeros 0 s; match mget d (KV m) with None => Ok z | Some (PArr a) => assign_all z a | Some _ => Raise TypeError end) = Ok a /\
      forall idx, inb (map Z.to_nat s) idx -> entry a idx = x idx.
  Proof.
    intros D Hv S P X. rewrite np_zeros_ok by exact P. cbn [bind].
    destruct (mget d (KV m)) as [v|] eqn:E.
    - pose proof E as E'. apply mget_has in E'; [|apply D]. destruct (valid_is_arr _ _ _ _ _ _ _ Hv E' S) as [a ->].
      exists a. assert (SH : shape a = map Z.to_nat s).
      { rewrite <- (valid_arr _ _ _ _ _ _ Hv E' _ S). rewrite map_map. rewrite <- (map_id (shape a)) at 1. apply map_ext. intros; lia. }
      split; [apply assign_all_same; [apply D in E'; exact E'|rewrite SH; reflexivity]|].
      intros idx I. symmetry. eapply stored_entry; eauto.
    - exists (afull (map Z.to_nat s) 0). split; [reflexivity|]. intros idx I. rewrite entry_zeros by exact I. symmetry. eapply stored_zero; eauto.
  Qed.

  Lemma inb2 n m i j : (i < n)%nat -> (j < m)%nat -> inb [n; m] [i; j]. Proof. intros; repeat constructor; assumption. Qed.
  Lemma inb3 n m p i j k : (i < n)%nat -> (j < m)%nat -> (k < p)%nat -> inb [n; m; p] [i; j; k]. Proof. intros; repeat constructor; assumption. Qed.

  Lemma lowest_energy_ok A N E w lin (q : nat -> R) Ef wf lf : eigvalsh_contract A eigvalsh ->
    (forall a b, (a < A)%nat -> (b < A)%nat -> entry E [a; b] = Ef a b) ->
    (forall i, (i < N)%nat -> entry w [i] = wf i) ->
    (forall i a b, (i < N)%nat -> (a < A)%nat -> (b < A)%nat -> entry lin [i; a; b] = lf i a b) ->
    symmetric A Ef -> (forall i, (i < N)%nat -> symmetric A (lf i)) ->
    exists e, lowest_energy eigvalsh A N N E w lin q = Ok e /\ least_eigenvalue A (potential N Ef wf lf q) e.
  Proof.
    intros EIG HE Hw Hl SE SL. unfold lowest_energy.
    assert (ST : forall x y, sum_times N x N y = Ok (Sum N (fun i => x i * y i))).
    { intros x y. unfold sum_times, times1. rewrite Nat.eqb_refl. cbn [bind fst snd]. rewrite total_Sum. reflexivity. }
    rewrite ST. cbn [bind].
    rewrite (for_res_collect _ (fun aa => Sum N (fun i => entry lin [i; fst aa; snd aa] * q i))) by (intros; apply ST).
    cbn [bind app]. cbv zeta.
    set (V := fun a1 a2 : nat => _).
    assert (VP : forall a b, (a < A)%nat -> (b < A)%nat -> V a b = potential N Ef wf lf q a b).
    { intros a b Ha Hb. unfold V, potential. rewrite nth_pairs by assumption. cbn [fst snd]. rewrite HE by assumption.
      f_equal; [f_equal|].
      - destruct (a =? b)%nat; [|reflexivity]. unfold Rdiv. f_equal. apply Sum_ext. intros i Hi. rewrite Hw by assumption. lra.
      - apply Sum_ext. intros i Hi. rewrite Hl by assumption. reflexivity. }
    assert (SV : symmetric A V).
    { intros a b Ha Hb. rewrite !VP by assumption. unfold potential. rewrite (SE a b) by assumption. rewrite (Nat.eqb_sym b a). f_equal.
      apply Sum_ext. intros i Hi. rewrite (SL i Hi a b) by assumption. reflexivity. }
    destruct (EIG V SV) as [NE SP]. destruct (eigvalsh A V) as [|x l] eqn:EV; [contradiction|].
    exists (fold_left Rmin l x). split; [reflexivity|]. apply (least_ext A V); [exact VP|].
    destruct (fold_min l x) as [I L]. split; [apply SP; exact I|]. intros y Y. apply L. apply SP. exact Y.
  Qed.

  Section Run.
    Variables (f : fs R) (vib path : string) (it cm : mdict R) (Ai A N : Z).
    Hypothesis U1 : forall o, f path = Some (CJson o) -> NoDup (map fst o).
    Hypothesis U2 : forall o, f vib = Some (CJson o) -> NoDup (map fst o).
    Hypothesis L1 : load_new 0 vint Diagonal f path = Ok it.
    Hypothesis L2 : load_new 0 vint Coupled f vib = Ok cm.
    Hypothesis V1 : valid Diagonal Ai N it.
    Hypothesis V2 : valid Coupled A N cm.
    Hypothesis HA : (0 < A)%Z.
    Hypothesis EIG : eigvalsh_contract (Z.to_nat A) eigvalsh.
    Hypothesis Q1 : no_quad it.
    Hypothesis Q2 : no_quad cm.
    Variables (E : nat -> nat -> R) (w : nat -> R) (lin : nat -> nat -> nat -> R) (wi : nat -> R) (li : nat -> nat -> R).
    Let nA := Z.to_nat A. Let nN := Z.to_nat N. Let nAi := Z.to_nat Ai.
    Hypothesis SE : forall a b, (a < nA)%nat -> (b < nA)%nat -> stored cm E_ [a; b] (E a b).
    Hypothesis Sw : forall i, (i < nN)%nat -> stored cm w_ [i] (w i).
    Hypothesis Sl : forall i a b, (i < nN)%nat -> (a < nA)%nat -> (b < nA)%nat -> stored cm G1_ [i; a; b] (lin i a b).
    Hypothesis Swi : forall i, (i < nN)%nat -> stored it w_ [i] (wi i).
    Hypothesis Sli : forall i a, (i < nN)%nat -> (a < nAi)%nat -> stored it G1_ [i; a] (li i a).
    Hypothesis W1 : exists v, has it (KV w_) v.
    Hypothesis W2 : exists v, has cm (KV w_) v.
    Hypothesis SyE : symmetric nA E.
    Hypothesis Syl : forall i, (i < nN)%nat -> symmetric nA (lin i).

    Lemma D1 : dict_ok it /\ known_keys it /\ serialisable it.
    Proof. destruct (load_new_inv _ _ _ _ _ _ U1 L1) as (? & ? & ? & _). auto. Qed.
    Lemma D2 : dict_ok cm /\ known_keys cm /\ serialisable cm.
    Proof. destruct (load_new_inv _ _ _ _ _ _ U2 L2) as (? & ? & ? & _). auto. Qed.
    Lemma loaded_E k p d : load_new 0 vint k f p = Ok d -> exists v, mget d (KV E_) = Some v.
    Proof.
      unfold load_new, load_raw. intros H.
      destruct (read_json f p) as [o|]; cbn [bind] in H; [|discriminate].
      destruct (string_to_enum o) as [o'|]; cbn [bind] in H; [|discriminate].
      destruct (load_values o') as [l|]; cbn [bind] in H; [|discriminate].
      destruct (dmem key_eqb l (KV E_)) eqn:M.
      - cbn [bind] in H. destruct (verify vint k l); cbn [bind] in H; [|discriminate]. inv H. unfold dmem in M. destruct (dget key_eqb d (KV E_)) as [v|] eqn:G; [|discriminate]. exists v. exact G.
      - destruct (extract_dims vint l); cbn [bind] in H; [|discriminate]. destruct (np_zeros 0 _) as [z|]; cbn [bind] in H; [|discriminate].
        destruct (verify vint k _); cbn [bind] in H; [|discriminate]. inv H. eexists. unfold mget, mset. apply dget_dset_same. apply key_eqb_eq.
    Qed.
    Lemma posN : (0 <= N)%Z.
    Proof.
      destruct W2 as [v H]. destruct (valid_is_arr _ _ _ _ _ _ _ V2 H eq_refl) as [a ->].
      pose proof (valid_arr _ _ _ _ _ _ V2 H _ eq_refl) as S. cbn in S. destruct (shape a) as [|n [|]]; try discriminate. cbn in S. injection S as <-. apply Zle_0_nat.
    Qed.
    Lemma posAi : (0 <= Ai)%Z.
    Proof.
      destruct (loaded_E _ _ _ L1) as [v H]. apply mget_has in H; [|apply D1]. destruct (valid_is_arr _ _ _ _ _ _ _ V1 H eq_refl) as [a ->].
      pose proof (valid_arr _ _ _ _ _ _ V1 H _ eq_refl) as S. cbn in S. destruct (shape a) as [|n [|]]; try discriminate. cbn in S. injection S as <-. apply Zle_0_nat.
    Qed.

    Lemma dims1 : extract_dims vint it = Ok (Ai, N).
    Proof. apply extract_dims_spec; [apply D1|apply V1]. Qed.
    Lemma dims2 : extract_dims vint cm = Ok (A, N).
    Proof. apply extract_dims_spec; [apply D2|apply V2]. Qed.

    Lemma marr_has k X Y d m s : dict_ok d -> valid k X Y d -> (exists v, has d (KV m) v) -> spec_shape k X Y m = Some s -> exists a, marr d m = Ok a /\ has d (KV m) (PArr a).
    Proof.
      intros D Hv [v H] S. destruct (valid_is_arr _ _ _ _ _ _ _ Hv H S) as [a ->]. exists a. split; [|exact H].
      unfold marr, mitem. apply mget_has in H; [|apply D]. rewrite H. reflexivity.
    Qed.

    (** the points used *)
    Lemma minimums_ok : exists mins, minimums it Ai N = Ok mins /\
      forall a i, (a < nAi)%nat -> (i < nN)%nat -> mins a i = minimum wi (fun i => li i a) i.
    Proof.
      unfold minimums. rewrite np_zeros_ok by (repeat constructor; [exact posAi|exact posN]). cbn [bind].
      destruct (mget it (KV G1_)) as [v|] eqn:G.
      - destruct (marr_has _ _ _ _ w_ _ (proj1 D1) V1 W1 eq_refl) as (aw & Ew & Hw). rewrite Ew. cbn [bind].
        pose proof G as G'. apply mget_has in G'; [|apply D1].
        destruct (marr_has _ _ _ _ G1_ _ (proj1 D1) V1 (ex_intro _ v G') eq_refl) as (al & El & Hl). rewrite El. cbn [bind].
        eexists. split; [reflexivity|]. intros a i Ha Hi. unfold minimum. cbv beta.
        rewrite <- (stored_entry _ _ _ _ _ (proj1 D1) Hw (Swi i Hi)). rewrite <- (stored_entry _ _ _ _ _ (proj1 D1) Hl (Sli i a Hi Ha)). apply Ropp_div.
      - eexists. split; [reflexivity|]. intros a i Ha Hi. unfold minimum. cbv beta. rewrite (stored_zero _ _ _ _ (proj1 D1) G (Sli i a Hi Ha)). unfold Rdiv. lra.
    Qed.

    Definition q (a : nat) : nat -> R := minimum wi (fun i => li i a).

    Lemma potential_ext Ef wf lf q1 q2 a b : (forall i, (i < nN)%nat -> q1 i = q2 i) -> potential nN Ef wf lf q1 a b = potential nN Ef wf lf q2 a b.
    Proof.
      intros H. unfold potential. f_equal; [f_equal|].
      - destruct (a =? b)%nat; [|reflexivity]. f_equal. apply Sum_ext. intros i Hi. rewrite H by assumption. reflexivity.
      - apply Sum_ext. intros i Hi. rewrite H by assumption. reflexivity.
    Qed.

    Lemma collect_exists {X} (g : X -> res R) (P : X -> R -> Prop) l : (forall x, In x l -> exists e, g x = Ok e /\ P x e) ->
      exists es, for_res (fun acc x => do e <- g x; Ok (acc ++ [e])) l [] = Ok es /\ Forall2 P l es.
    Proof.
      intros H. assert (G : forall acc, exists es, for_res (fun acc x => do e <- g x; Ok (acc ++ [e])) l acc = Ok (acc ++ es) /\ Forall2 P l es).
      { induction l as [|x l IH]; intros acc.
        - exists []. split; [cbn; rewrite app_nil_r; reflexivity|constructor].
        - destruct (H x (or_introl eq_refl)) as (e & Ge & Pe). destruct (IH (fun y Hy => H y (or_intror Hy)) (acc ++ [e])) as (es & Fe & Pes).
          exists (e :: es). cbn [for_res]. rewrite Ge. cbn [bind]. rewrite Fe. rewrite <- app_assoc. split; [reflexivity|constructor; assumption]. }
      destruct (G []) as (es & F & P2). exists es. auto.
    Qed.

    Lemma Forall2_nth {X} (P : X -> R -> Prop) l es k x : Forall2 P l es -> nth_error l k = Some x -> P x (nth k es 0).
    Proof. intros F. revert k. induction F; intros [|k] H1; cbn in *; try discriminate; [inv H1; assumption|auto]. Qed.

    Lemma single_point_ok : exists es, single_point vint eigvalsh f vib path = Ok es /\ length es = nAi /\
      forall a, (a < nAi)%nat -> least_eigenvalue nA (potential nN E w lin (q a)) (nth a es 0).
    Proof.
      unfold single_point. rewrite L1. cbn [bind]. rewrite (no_quadratic_ok _ _ _ _ (proj1 D1) V1 Q1). cbn [bind].
      rewrite dims1. cbn [bind fst snd]. destruct minimums_ok as (mins & EM & HM). rewrite EM. cbn [bind].
      rewrite L2. cbn [bind]. rewrite dims2. cbn [bind fst snd].
      destruct (loaded_E _ _ _ L2) as [vE GE]. apply mget_has in GE; [|apply D2].
      destruct (marr_has _ _ _ _ E_ _ (proj1 D2) V2 (ex_intro _ vE GE) eq_refl) as (aE & EE & HE). rewrite EE. cbn [bind].
      destruct (marr_has _ _ _ _ w_ _ (proj1 D2) V2 W2 eq_refl) as (aw & Ew & Hw). rewrite Ew. cbn [bind].
      unfold coupled_linear.
      destruct (filled Coupled A N cm G1_ [N; A; A] (fun idx => lin (nth 0 idx 0%nat) (nth 1 idx 0%nat) (nth 2 idx 0%nat)) (proj1 D2) V2 eq_refl) as (al & El & Hl).
      { repeat constructor; [exact posN|lia|lia]. }
      { intros idx I. inversion I as [|i x1 l1 x2 I1 F1]; subst. inversion F1 as [|a y1 l2 y2 I2 F2]; subst. inversion F2 as [|b z1 l3 z2 I3 F3]; subst. inversion F3; subst. apply Sl; assumption. }
      rewrite El. cbn [bind]. rewrite (no_quadratic_ok _ _ _ _ (proj1 D2) V2 Q2). cbn [bind].
      destruct (collect_exists (fun a => lowest_energy eigvalsh (Z.to_nat A) (Z.to_nat N) (Z.to_nat N) aE aw al (mins a))
        (fun a e => least_eigenvalue nA (potential nN E w lin (q a)) e) (seq 0 (Z.to_nat Ai))) as (es & Fe & Pe).
      { intros a Ia. apply in_seq in Ia.
        destruct (lowest_energy_ok nA nN aE aw al (mins a) E w lin) as (e & Ee & Le).
        - exact EIG.
        - intros x y Hx Hy. symmetry. eapply stored_entry; [apply D2|exact HE|apply SE; assumption].
        - intros i Hi. symmetry. eapply stored_entry; [apply D2|exact Hw|apply Sw; assumption].
        - intros i x y Hi Hx Hy. rewrite Hl by (apply inb3; assumption). reflexivity.
        - exact SyE.
        - exact Syl.
        - exists e. split; [exact Ee|]. eapply least_ext; [|exact Le]. intros x y _ _. apply potential_ext. intros i Hi. apply HM; [unfold nAi; lia|exact Hi]. }
      exists es. split; [exact Fe|]. split; [apply Forall2_length in Pe; rewrite seq_length in Pe; symmetry; exact Pe|].
      intros a Ha. apply (Forall2_nth _ _ _ a a Pe). rewrite nth_error_seq by exact Ha. reflexivity.
    Qed.

    Lemma square i a : wi i <> 0 -> wi i * q a i ^ 2 / 2 + li i a * q a i = - / 2 * (li i a * li i a / wi i).
    Proof. intros W. unfold q, minimum. field. exact W. Qed.

    Lemma recalculate_ok : (forall i, (i < nN)%nat -> wi i <> 0) ->
      exists f' d' Enew, recalculate vint eigvalsh f vib path = (f', Ok tt) /\
        save is_zero vint Diagonal f path d' = (f', Ok tt) /\
        d' = mset it (KV E_) (PArr (mkArr [nAi] (map Enew (seq 0 nAi)))) /\
        with_energies it nAi Enew d' /\ (dict_ok d' /\ known_keys d' /\ serialisable d' /\ valid Diagonal Ai N d') /\
        (forall a, (a < nAi)%nat -> least_eigenvalue nA (potential nN E w lin (q a)) (surface nN Enew wi (fun i => li i a) a (q a))).
    Proof.
      intros WZ. unfold recalculate. destruct single_point_ok as (es & SP & Len & LE). rewrite SP. cbn [bind]. rewrite L1. cbn [bind].
      rewrite dims1. cbn [bind fst snd].
      destruct (filled Diagonal Ai N it G1_ [N; Ai] (fun idx => li (nth 0 idx 0%nat) (nth 1 idx 0%nat)) (proj1 D1) V1 eq_refl) as (al & El & Hl).
      { repeat constructor; [exact posN|exact posAi]. }
      { intros idx I. inversion I as [|i x1 l1 x2 I1 F1]; subst. inversion F1 as [|a y1 l2 y2 I2 F2]; subst. inversion F2; subst. apply Sli; assumption. }
      rewrite np_zeros_ok in El |- * by (repeat constructor; [exact posN|exact posAi]). cbn [bind] in El |- *. rewrite El. cbn [bind].
      destruct (marr_has _ _ _ _ w_ _ (proj1 D1) V1 W1 eq_refl) as (aw & Ew & Hw). rewrite Ew. cbn [bind]. cbv zeta.
      fold nAi. fold nN.
      set (Enew := fun a => nth a es 0 - - / 2 * total nN (fun i => entry al [i; a] * entry al [i; a] / entry aw [i])).
      set (d' := mset it (KV E_) (PArr (mkArr [nAi] (map Enew (seq 0 nAi))))).
      assert (HS : with_energies it nAi Enew d').
      { assert (ND : NoDup (map fst d')) by (apply dset_NoDup; [apply key_eqb_eq|apply D1]).
        intros k v. rewrite <- (mget_has d' k v ND). unfold d', mget, mset. split.
        - intros G. destruct (key_eqb k (KV E_)) eqn:K.
          + apply key_eqb_eq in K. subst k. rewrite dget_dset_same in G by apply key_eqb_eq. inv G. left; auto.
          + assert (KN : k <> KV E_) by (intros ->; rewrite (proj2 (key_eqb_eq _ _) eq_refl) in K; discriminate).
            rewrite dget_dset_other in G by (try apply key_eqb_eq; exact KN). right. split; [exact KN|]. apply mget_has; [apply D1|exact G].
        - intros [[-> ->]|[KN G]].
          + apply dget_dset_same, key_eqb_eq.
          + rewrite dget_dset_other by (try apply key_eqb_eq; exact KN). apply mget_has in G; [exact G|apply D1]. }
      assert (X : dict_ok d' /\ known_keys d' /\ serialisable d' /\ valid Diagonal Ai N d').
      { split; [split|split; [|split]].
        - apply dset_NoDup; [apply key_eqb_eq|apply D1].
        - intros k a G. apply HS in G. destruct G as [[_ G]|[_ G]].
          + injection G as ->. unfold wf_arr. cbn [shape data prodn fold_right]. rewrite map_length, seq_length. lia.
          + eapply (proj2 (proj1 D1)); eauto.
        - intros k v G. apply HS in G. destruct G as [[-> _]|[_ G]]; [eauto|]. eapply (proj1 (proj2 D1)); eauto.
        - intros k v G. apply HS in G. destruct G as [[_ ->]|[_ G]]; [discriminate|]. eapply (proj2 (proj2 D1)); eauto.
        - destruct V1 as [[(x & X1 & X2) (y & Y1 & Y2)] VV]. split.
          + split; [exists x|exists y]; (split; [|assumption]); apply HS; right; (split; [discriminate|assumption]).
          + intros m v s G S. apply HS in G. destruct G as [[K ->]|[_ G]]; [|eapply VV; eauto]. injection K as ->.
            cbn in S. injection S as <-. eexists. split; [reflexivity|]. cbn [shape map]. unfold nAi. rewrite Z2Nat.id by exact posAi. reflexivity. }
      assert (DD : exists f', save is_zero vint Diagonal f path d' = (f', Ok tt)).
      { destruct X as (X1 & X2 & X3 & X4).
        destruct (@save_load_diagonal R 0 is_zero vint (fun _ => 0) f path d' Ai N X1 X2 X3 X4) as (f' & S & _). exists f'. exact S. }
      destruct DD as [f' SV]. exists f', d', Enew. split; [exact SV|]. split; [exact SV|]. split; [reflexivity|]. split; [exact HS|]. split; [exact X|].
      intros a Ha. replace (surface nN Enew wi (fun i => li i a) a (q a)) with (nth a es 0); [apply LE; exact Ha|].
      unfold surface. rewrite (Sum_ext _ _ (fun i => - / 2 * (entry al [i; a] * entry al [i; a] / entry aw [i]))).
      - rewrite Sum_scal. unfold Enew. rewrite total_Sum. lra.
      - intros i Hi. rewrite square by (apply WZ; exact Hi).
        rewrite <- (stored_entry _ _ _ _ _ (proj1 D1) Hw (Swi i Hi)). rewrite Hl by (apply inb2; assumption). reflexivity.
    Qed.
  End Run.

  Lemma minimum_is_lowest N wi (li : nat -> R) E a x : (forall i, (i < N)%nat -> 0 < wi i) ->
    surface N E wi li a (minimum wi li) <= surface N E wi li a x.
  Proof.
    intros W. unfold surface. apply Rplus_le_compat_l. apply Sum_le. intros i Hi. specialize (W i Hi). unfold minimum.
    replace (wi i * (- (li i / wi i)) ^ 2 / 2 + li i * - (li i / wi i)) with (wi i * x i ^ 2 / 2 + li i * x i - wi i / 2 * (x i + li i / wi i) ^ 2) by (field; lra).
    assert (0 <= wi i / 2 * (x i + li i / wi i) ^ 2) by (apply Rmult_le_pos; [lra|apply pow2_ge_0]). lra.
  Qed.

  (** the keys of a written file are distinct *)
  Lemma saved_unique k (f f' : fs R) path d o : dict_ok d -> known_keys d -> serialisable d ->
    save is_zero vint k f path d = (f', Ok tt) -> f' path = Some (CJson o) -> NoDup (map fst o).
  Proof.
    intros [ND W] KK S SV F. destruct (known_kv KK) as [l ->].
    assert (NDl : NoDup (map fst l)) by (apply NoDup_kv; auto).
    assert (VE : verify vint k (kv_dict l) = Ok tt).
    { unfold save in SV. destruct (verify vint k (kv_dict l)) as [[]|]; [reflexivity|discriminate]. }
    destruct (@save_known R is_zero vint f path k _ l eq_refl NDl S VE) as (f2 & S2 & F2).
    rewrite SV in S2. injection S2 as <-. rewrite F2, String.eqb_refl in F. injection F as <-.
    rewrite map_map. cbn [fst]. rewrite <- map_map with (f := fst) (g := vmk_value).
    apply FinFun.Injective_map_NoDup; [intros x y; apply vmk_value_inj|]. apply enc_all_NoDup. exact NDl.
  Qed.

  Lemma is_zero_true x : is_zero x = true -> x = 0.
  Proof. unfold is_zero. destruct (Req_EM_T x 0); [auto|discriminate]. Qed.
  Lemma is_zero_false x : x <> 0 -> is_zero x = false.
  Proof. unfold is_zero. destruct (Req_EM_T x 0); [contradiction|auto]. Qed.

  Lemma aget_In (a : arr R) idx x : aget a idx = Some x -> In x (data a).
  Proof. unfold aget. intros H. destruct (offset (shape a) idx); [eapply nth_error_In; eauto|discriminate]. Qed.

  (** numbers survive the removal of arrays that are zero everywhere *)
  Lemma kept_stored (d d2 : mdict R) m idx x :
    (forall m v, has d2 (KV m) v <-> (has d (KV m) v /\ forall a, v = PArr a -> some_nonzero is_zero a)) ->
    (forall v, has d (KV m) v -> exists a, v = PArr a) -> NoDup (map fst d) ->
    stored d m idx x -> stored d2 m idx x.
  Proof.
    intros H AR ND S. destruct S as [a v Ha G|Hm].
    - destruct (any_nonzero is_zero a) eqn:Z.
      + apply any_nonzero_spec in Z. eapply reads_arr; [|exact G]. apply H. split; [exact Ha|]. intros b E. injection E as <-. exact Z.
      + assert (v = 0).
        { apply is_zero_true. destruct (is_zero v) eqn:I; [reflexivity|]. exfalso.
          assert (any_nonzero is_zero a = true); [|congruence]. apply any_nonzero_spec. exists v. split; [eapply aget_In; eauto|exact I]. }
        subst v. apply reads_missing. intros u Hu. apply H in Hu. destruct Hu as [Hu K].
        pose proof (has_fun _ _ _ _ ND Hu Ha) as E. subst u. specialize (K a eq_refl). apply any_nonzero_spec in K. congruence.
    - apply reads_missing. intros u Hu. apply H in Hu. destruct Hu as [Hu _]. eapply Hm; eauto.
  Qed.

  Section Reject.
    Variables (f : fs R) (vib path : string) (it cm : mdict R) (Ai A N Ni : Z).
    Hypothesis U1 : forall o, f path = Some (CJson o) -> NoDup (map fst o).
    Hypothesis U2 : forall o, f vib = Some (CJson o) -> NoDup (map fst o).
    Hypothesis L1 : load_new 0 vint Diagonal f path = Ok it.
    Hypothesis L2 : load_new 0 vint Coupled f vib = Ok cm.
    Hypothesis V1 : valid Diagonal Ai Ni it.
    Hypothesis V2 : valid Coupled A N cm.
    Hypothesis W1 : exists v, has it (KV w_) v.

    Lemma okit : dict_ok it. Proof. exact (proj1 (D1 f path it U1 L1)). Qed.
    Lemma okcm : dict_ok cm. Proof. exact (proj1 (D2 f vib cm U2 L2)). Qed.
    Lemma nonneg k X Y d m s : valid k X Y d -> (exists v, has d (KV m) v) -> spec_shape k X Y m = Some s -> Forall (fun z => (0 <= z)%Z) s.
    Proof.
      intros Hv [v H] S. destruct (valid_is_arr _ _ _ _ _ _ _ Hv H S) as [a ->]. rewrite <- (valid_arr _ _ _ _ _ _ Hv H _ S).
      apply Forall_map, Forall_forall. intros n _. apply Zle_0_nat.
    Qed.
    Lemma hasE k p d : load_new 0 vint k f p = Ok d -> dict_ok d -> exists v, has d (KV E_) v.
    Proof. intros L D. destruct (loaded_E _ _ _ _ L) as [v H]. exists v. apply mget_has; [apply D|exact H]. Qed.
    Lemma min_ok : exists mins, minimums it Ai Ni = Ok mins.
    Proof.
      unfold minimums.
      assert (P1 := nonneg _ _ _ _ _ _ V1 (hasE _ _ _ L1 okit) eq_refl). assert (P2 := nonneg _ _ _ _ _ _ V1 W1 eq_refl). inv P1. inv P2.
      rewrite np_zeros_ok by (repeat constructor; assumption). cbn [bind].
      destruct (mget it (KV G1_)) as [v|] eqn:G; [|eauto].
      destruct (marr_has _ _ _ _ w_ _ okit V1 W1 eq_refl) as (aw & Ew & Hw). rewrite Ew. cbn [bind].
      apply mget_has in G; [|apply okit]. destruct (marr_has _ _ _ _ G1_ _ okit V1 (ex_intro _ v G) eq_refl) as (al & El & Hl). rewrite El. cbn [bind]. eauto.
    Qed.
    Lemma lin_ok : (exists v, has cm (KV w_) v) -> exists al, coupled_linear cm A N = Ok al.
    Proof.
      intros W2. assert (P1 := nonneg _ _ _ _ _ _ V2 (hasE _ _ _ L2 okcm) eq_refl). assert (P2 := nonneg _ _ _ _ _ _ V2 W2 eq_refl). inv P1. inv P2.
      unfold coupled_linear.
      destruct (filled Coupled A N cm G1_ [N; A; A] (fun idx => match mget cm (KV G1_) with Some (PArr a) => entry a idx | _ => 0 end) okcm V2 eq_refl) as (al & El & _); [repeat constructor; assumption| |eauto].
      intros idx I. destruct (mget cm (KV G1_)) as [v|] eqn:G.
      - pose proof G as G'. apply mget_has in G'; [|apply okcm]. destruct (valid_is_arr _ _ _ _ _ _ _ V2 G' eq_refl) as [a ->].
        assert (SH : shape a = map Z.to_nat [N; A; A]).
        { pose proof (valid_arr _ _ _ _ _ _ V2 G' _ eq_refl) as SA. change (repeat N 1 ++ repeat A (surface_axes Coupled G1_)) with [N; A; A] in SA. rewrite <- SA. rewrite map_map. rewrite <- (map_id (shape a)) at 1. apply map_ext. intros; lia. }
        destruct (aget a idx) as [x|] eqn:AG.
        + eapply reads_arr; [exact G'|]. unfold entry. rewrite AG. reflexivity.
        + exfalso. rewrite <- SH in I. eapply aget_some in I; [|eapply (proj2 okcm); eauto]. destruct I as [? I]. congruence.
      - apply reads_missing. intros v Hv. apply mget_has in Hv; [|apply okcm]. congruence.
    Qed.
    Lemma raise_single e : single_point vint eigvalsh f vib path = Raise e -> recalculate vint eigvalsh f vib path = (f, Raise e).
    Proof. intros H. unfold recalculate. rewrite H. reflexivity. Qed.

    Lemma quadratic_rejected : (exists v, has cm (KV w_) v) -> ~ no_quad it \/ ~ no_quad cm -> recalculate vint eigvalsh f vib path = (f, Raise OtherException).
    Proof.
      intros W2 Q. apply raise_single. unfold single_point. rewrite L1. cbn [bind].
      destruct (no_quadratic it) as [[]|e] eqn:NQ; cbn [bind].
      - destruct Q as [Q|Q]; [rewrite (no_quadratic_raise _ _ _ _ okit V1 Q) in NQ; discriminate|].
        rewrite (proj2 (extract_dims_spec vint it Ai Ni (proj1 okit)) (proj1 V1)). cbn [bind fst snd]. destruct min_ok as [mins ->]. cbn [bind].
        rewrite L2. cbn [bind]. rewrite (proj2 (extract_dims_spec vint cm A N (proj1 okcm)) (proj1 V2)). cbn [bind fst snd].
        destruct (marr_has _ _ _ _ E_ _ okcm V2 (hasE _ _ _ L2 okcm) eq_refl) as (aE & -> & _). cbn [bind].
        destruct (marr_has _ _ _ _ w_ _ okcm V2 W2 eq_refl) as (aw & -> & _). cbn [bind].
        destruct (lin_ok W2) as [al ->]. cbn [bind]. rewrite (no_quadratic_raise _ _ _ _ okcm V2 Q). reflexivity.
      - f_equal. unfold no_quadratic in NQ. destruct (mget it (KV G2_)) as [v|] eqn:G; [|discriminate].
        pose proof G as G'. apply mget_has in G'; [|apply okit]. destruct (valid_is_arr _ _ _ _ _ _ _ V1 G' eq_refl) as [a ->].
        destruct (close_to_zero a); [discriminate|congruence].
    Qed.

    Lemma no_frequencies : (forall v, ~ has cm (KV w_) v) -> no_quad it -> recalculate vint eigvalsh f vib path = (f, Raise KeyError).
    Proof.
      intros W2 Q. apply raise_single. unfold single_point. rewrite L1. cbn [bind]. rewrite (no_quadratic_ok _ _ _ _ okit V1 Q). cbn [bind].
      rewrite (proj2 (extract_dims_spec vint it Ai Ni (proj1 okit)) (proj1 V1)). cbn [bind fst snd]. destruct min_ok as [mins ->]. cbn [bind].
      rewrite L2. cbn [bind]. rewrite (proj2 (extract_dims_spec vint cm A N (proj1 okcm)) (proj1 V2)). cbn [bind fst snd].
      destruct (marr_has _ _ _ _ E_ _ okcm V2 (hasE _ _ _ L2 okcm) eq_refl) as (aE & -> & _). cbn [bind].
      unfold marr, mitem. destruct (mget cm (KV w_)) as [v|] eqn:G; [|reflexivity]. apply mget_has in G; [|apply okcm]. exfalso. eapply W2; eauto.
    Qed.

    Lemma modes_rejected : (exists v, has cm (KV w_) v) -> no_quad it -> no_quad cm -> (0 < Ai)%Z -> Ni <> N -> Ni <> 1%Z -> N <> 1%Z ->
      recalculate vint eigvalsh f vib path = (f, Raise ValueError).
    Proof.
      intros W2 Q1 Q2 PA N1 N2 N3. apply raise_single. unfold single_point. rewrite L1. cbn [bind]. rewrite (no_quadratic_ok _ _ _ _ okit V1 Q1). cbn [bind].
      rewrite (proj2 (extract_dims_spec vint it Ai Ni (proj1 okit)) (proj1 V1)). cbn [bind fst snd]. destruct min_ok as [mins ->]. cbn [bind].
      rewrite L2. cbn [bind]. rewrite (proj2 (extract_dims_spec vint cm A N (proj1 okcm)) (proj1 V2)). cbn [bind fst snd].
      destruct (marr_has _ _ _ _ E_ _ okcm V2 (hasE _ _ _ L2 okcm) eq_refl) as (aE & -> & _). cbn [bind].
      destruct (marr_has _ _ _ _ w_ _ okcm V2 W2 eq_refl) as (aw & -> & _). cbn [bind].
      destruct (lin_ok W2) as [al ->]. cbn [bind]. rewrite (no_quadratic_ok _ _ _ _ okcm V2 Q2). cbn [bind].
      assert (P1 := nonneg _ _ _ _ _ _ V2 W2 eq_refl). assert (P2 := nonneg _ _ _ _ _ _ V1 W1 eq_refl). inv P1. inv P2.
      destruct (Z.to_nat Ai) as [|n] eqn:EA; [lia|]. cbn [seq for_res]. unfold lowest_energy at 1, sum_times at 1, times1 at 1.
      destruct (Nat.eqb_spec (Z.to_nat N) (Z.to_nat Ni)); [exfalso; lia|]. destruct (Nat.eqb_spec (Z.to_nat N) 1); [exfalso; lia|].
      destruct (Nat.eqb_spec (Z.to_nat Ni) 1); [exfalso; lia|]. reflexivity.
    Qed.
  End Reject.
End P.
