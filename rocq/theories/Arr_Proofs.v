(** Facts about the numpy array model of Arr_Model.v. *)
From Verif Require Import Common Arr_Model.

(** a multi-index is inside a shape *)
Definition inb (s idx : list nat) : Prop := Forall2 lt idx s.

Lemma nth_error_ext {A} (l l' : list A) :
  (forall n, nth_error l n = nth_error l' n) -> l = l'.
Proof.
  revert l'; induction l; destruct l'; intros H; auto.
  - specialize (H 0); discriminate.
  - specialize (H 0); discriminate.
  - f_equal. specialize (H 0); inversion H; auto. apply IHl. intros n. apply (H (S n)).
Qed.

Section Arr.
  Context {V : Type}.
  Implicit Types (a : arr V) (s idx : list nat).

  Lemma prodn_cons d s : prodn (d :: s) = d * prodn s.
  Proof. reflexivity. Qed.

  Lemma list_eqb_refl s : list_eqb s s = true.
  Proof. induction s; simpl; auto. rewrite Nat.eqb_refl. auto. Qed.

  Lemma list_eqb_eq s t : list_eqb s t = true <-> s = t.
  Proof.
    revert t; induction s; destruct t; simpl; split; intros H; try discriminate; auto.
    - apply andb_true_iff in H. destruct H as [H1 H2]. apply Nat.eqb_eq in H1. apply IHs in H2. congruence.
    - inversion H; subst. rewrite Nat.eqb_refl. apply list_eqb_refl.
  Qed.

  Lemma offset_inb s idx : inb s idx <-> exists k, offset s idx = Some k.
  Proof.
    revert idx; induction s; destruct idx; split; intros H; simpl in *.
    - exists 0; auto.
    - constructor.
    - inversion H.
    - destruct H; discriminate.
    - inversion H.
    - destruct H; discriminate.
    - inversion H; subst. apply IHs in H5. destruct H5 as [k Hk].
      destruct (Nat.ltb_spec n a); try lia. rewrite Hk. eauto.
    - destruct H as [k H]. destruct (Nat.ltb_spec n a); try discriminate.
      destruct (offset s idx) eqn:E; try discriminate.
      constructor; auto. apply IHs. eauto.
  Qed.

  Lemma offset_lt s idx k : offset s idx = Some k -> k < prodn s.
  Proof.
    revert idx k; induction s; destruct idx; intros k H; simpl in *; try discriminate.
    - inversion H; subst. unfold prodn; simpl; lia.
    - destruct (Nat.ltb_spec n a); try discriminate.
      destruct (offset s idx) eqn:E; try discriminate. apply IHs in E. inversion H; subst.
      unfold prodn in *; simpl. nia.
  Qed.

  Lemma flat_map_length_const {A B} (f : A -> list B) m l :
    (forall x, In x l -> length (f x) = m) -> length (flat_map f l) = length l * m.
  Proof.
    induction l; intros H; simpl; auto. rewrite app_length, H, IHl; auto; simpl; auto.
    intros; apply H; right; auto.
  Qed.

  Lemma tab_length s (f : list nat -> V) : length (tab s f) = prodn s.
  Proof.
    revert f; induction s; intros f; simpl; auto.
    rewrite flat_map_length_const with (m := prodn s).
    - rewrite seq_length. reflexivity.
    - intros; apply IHs.
  Qed.

  Lemma wf_abuild s (f : list nat -> V) : wf_arr (abuild s f).
  Proof. apply tab_length. Qed.

  Lemma wf_afull s (v : V) : wf_arr (afull s v).
  Proof. apply wf_abuild. Qed.

  Lemma nth_error_flat_map_const {A B} (f : A -> list B) m l i x k :
    (forall y, In y l -> length (f y) = m) ->
    nth_error l i = Some x -> k < m ->
    nth_error (flat_map f l) (i * m + k) = nth_error (f x) k.
  Proof.
    revert i; induction l; intros i Hm Hx Hk; destruct i; simpl in *; try discriminate.
    - inversion Hx; subst. rewrite nth_error_app1; auto. rewrite Hm; auto.
    - rewrite nth_error_app2; rewrite Hm; auto; try lia.
      replace (m + i * m + k - m) with (i * m + k) by lia. apply IHl; auto.
  Qed.

  Lemma nth_error_seq d i st : i < d -> nth_error (seq st d) i = Some (st + i).
  Proof.
    revert i st; induction d; intros i st H; try lia. destruct i; simpl.
    - f_equal; lia.
    - rewrite IHd; try lia. f_equal; lia.
  Qed.

  Lemma nth_error_tab s (f : list nat -> V) idx k :
    offset s idx = Some k -> nth_error (tab s f) k = Some (f idx).
  Proof.
    revert f idx k; induction s; destruct idx; intros k H; simpl in *; try discriminate.
    - inversion H; subst; auto.
    - destruct (Nat.ltb_spec n a); try discriminate.
      destruct (offset s idx) eqn:E; try discriminate. inversion H; subst.
      rewrite nth_error_flat_map_const with (m := prodn s) (x := n).
      + rewrite IHs with (idx := idx); auto.
      + intros; apply tab_length.
      + rewrite nth_error_seq; auto.
      + eapply offset_lt; eauto.
  Qed.

  Lemma aget_abuild s (f : list nat -> V) idx : inb s idx -> aget (abuild s f) idx = Some (f idx).
  Proof.
    intros H. apply offset_inb in H. destruct H as [k Hk].
    unfold aget, abuild; simpl. rewrite Hk. apply nth_error_tab; auto.
  Qed.

  Lemma aget_some a idx : wf_arr a -> inb (shape a) idx -> exists v, aget a idx = Some v.
  Proof.
    intros W H. apply offset_inb in H. destruct H as [k Hk]. unfold aget. rewrite Hk.
    destruct (nth_error (data a) k) eqn:E; eauto.
    apply nth_error_None in E. apply offset_lt in Hk. unfold wf_arr in W. lia.
  Qed.

  Lemma aget_none a idx : ~ inb (shape a) idx -> aget a idx = None.
  Proof.
    intros H. unfold aget. destruct (offset (shape a) idx) eqn:E; auto.
    exfalso. apply H. apply offset_inb. eauto.
  Qed.

  Lemma aget_inb a idx v : aget a idx = Some v -> inb (shape a) idx.
  Proof.
    unfold aget. destruct (offset (shape a) idx) eqn:E; try discriminate. intros _.
    apply offset_inb. eauto.
  Qed.

  Lemma offset_surj s k : k < prodn s -> exists idx, offset s idx = Some k.
  Proof.
    revert k; induction s; intros k H; simpl in H.
    - exists []; simpl. f_equal. unfold prodn in H; simpl in H; lia.
    - destruct (Nat.eq_dec (prodn s) 0) as [Z|NZ].
      + unfold prodn in *. rewrite Z in H. lia.
      + assert (k mod prodn s < prodn s) as Hm by (apply Nat.mod_upper_bound; auto).
        destruct (IHs _ Hm) as [idx Hidx].
        exists (k / prodn s :: idx). simpl.
        assert (k / prodn s < a) as Hd.
        { apply Nat.div_lt_upper_bound; auto. unfold prodn in *; nia. }
        destruct (Nat.ltb_spec (k / prodn s) a); try lia. rewrite Hidx. f_equal.
        rewrite (Nat.div_mod k (prodn s)) at 3; auto. lia.
  Qed.

  (** arrays are determined by shape and entries *)
  Lemma arr_ext a b :
    wf_arr a -> wf_arr b -> shape a = shape b ->
    (forall idx, inb (shape a) idx -> aget a idx = aget b idx) -> a = b.
  Proof.
    intros Wa Wb Hs H. destruct a as [sa da], b as [sb db]; simpl in *. subst sb. f_equal.
    unfold wf_arr in *; simpl in *.
    apply nth_error_ext. intros k. destruct (lt_dec k (prodn sa)) as [L|L].
    - destruct (offset_surj _ _ L) as [idx Hidx].
      assert (inb sa idx) as I by (apply offset_inb; eauto).
      specialize (H _ I). unfold aget in H; simpl in H. rewrite Hidx in H. auto.
    - rewrite (proj2 (nth_error_None da k)), (proj2 (nth_error_None db k)); auto; lia.
  Qed.

  (** ---- tolist / np.array ---- *)
  Lemma chunks_length k m (l : list V) : length (chunks k m l) = k.
  Proof. revert l; induction k; simpl; intros; auto. Qed.

  Lemma chunks_concat k m (l : list V) : length l = k * m -> concat (chunks k m l) = l.
  Proof.
    revert l; induction k; simpl; intros l H.
    - destruct l; simpl in *; auto; lia.
    - rewrite IHk. apply firstn_skipn. rewrite skipn_length. lia.
  Qed.

  Lemma chunks_len_each k m (l : list V) :
    length l = k * m -> Forall (fun c => length c = m) (chunks k m l).
  Proof.
    revert l; induction k; simpl; intros l H; constructor.
    - rewrite firstn_length. lia.
    - apply IHk. rewrite skipn_length. lia.
  Qed.

  Lemma np_array_go_ok (s : list nat) (cs : list (list V)) :
    (forall c, In c cs -> np_array (tolist_ s c) = Ok (mkArr s c)) ->
    (fix go (l : list (nest V)) : res (nat * list V) :=
                     match l with
                     | [] => Ok (0, [])
                     | z :: zs =>
                         do a <- np_array z;
                         if list_eqb (shape a) s
                         then do r <- go zs; Ok (S (fst r), data a ++ snd r)
                         else Raise ValueError
                     end) (map (tolist_ s) cs) = Ok (length cs, concat cs).
  Proof.
    induction cs; intros H; simpl; auto.
    rewrite H by (left; auto). simpl. rewrite list_eqb_refl.
    rewrite IHcs by (intros; apply H; right; auto). simpl. auto.
  Qed.

  Lemma np_array_tolist_ s (l : list V) :
    Forall (fun d => 0 < d) s -> length l = prodn s -> np_array (tolist_ s l) = Ok (mkArr s l).
  Proof.
    revert l; induction s; intros l Hs Hl.
    - simpl. destruct l as [|v [|]]; simpl in *; unfold prodn in Hl; simpl in Hl; try lia. auto.
    - inversion Hs; subst. simpl tolist_.
      rewrite prodn_cons in Hl.
      assert (forall c, In c (chunks a (prodn s) l) -> np_array (tolist_ s c) = Ok (mkArr s c)) as Hc.
      { intros c Hin. apply IHs; auto.
        pose proof (chunks_len_each a (prodn s) l Hl) as F. rewrite Forall_forall in F. auto. }
      pose proof (chunks_length a (prodn s) l) as CL.
      pose proof (chunks_concat a (prodn s) l Hl) as CC.
      destruct (chunks a (prodn s) l) as [|c cs] eqn:E; simpl in CL; try lia.
      simpl map. cbn [np_array]. rewrite Hc by (left; auto).
      cbn [bind shape]. rewrite np_array_go_ok by (intros; apply Hc; right; auto).
      cbn [bind fst snd data]. rewrite CL. simpl in CC. rewrite CC. auto.
  Qed.

  (** np.array(a.tolist()) gives [a] back, for arrays without an empty axis *)
  Lemma np_array_tolist a :
    wf_arr a -> Forall (fun d => 0 < d) (shape a) -> np_array (tolist a) = Ok a.
  Proof. destruct a as [s l]. intros. apply np_array_tolist_; auto. Qed.

  Lemma data_nonempty_dims a : wf_arr a -> data a <> [] -> Forall (fun d => 0 < d) (shape a).
  Proof.
    destruct a as [s l]; unfold wf_arr; simpl. intros H NE.
    assert (prodn s <> 0) as P by (destruct l; simpl in *; try congruence; lia).
    clear -P. induction s; constructor; rewrite prodn_cons in P; try lia. apply IHs. nia.
  Qed.

  (** arrays produced by np.array are well formed *)
  Lemma nest_ind2 (P : nest V -> Prop) :
    (forall v, P (NNum v)) -> (forall l, Forall P l -> P (NList l)) -> forall x, P x.
  Proof.
    intros Hv Hl. fix IH 1. intros [v|l].
    - apply Hv.
    - apply Hl. induction l; constructor; [apply IH | assumption].
  Qed.

  Lemma np_array_wf x a : np_array x = Ok a -> wf_arr a.
  Proof.
    revert a. induction x using nest_ind2; intros a Ha.
    - inversion Ha; subst. reflexivity.
    - destruct l as [|y ys].
      + inversion Ha; subst. reflexivity.
      + cbn [np_array] in Ha. inversion H; subst.
        destruct (np_array y) as [a0|] eqn:E0; try discriminate. cbn [bind] in Ha.
        match type of Ha with bind ?g _ = _ => destruct g as [[n l]|] eqn:Eg end; try discriminate.
        cbn [bind fst snd] in Ha. inversion Ha; subst. unfold wf_arr; simpl.
        rewrite app_length. rewrite (H2 _ eq_refl).
        assert (length l = n * prodn (shape a0)) as HL.
        { clear -Eg H3. revert n l Eg. induction ys; intros n l Eg; simpl in Eg.
          - inversion Eg; subst; auto.
          - inversion H3; subst. destruct (np_array a) as [a1|] eqn:E1; try discriminate.
            cbn [bind] in Eg. destruct (list_eqb (shape a1) (shape a0)) eqn:ES; try discriminate.
            apply list_eqb_eq in ES.
            match type of Eg with bind ?g _ = _ => destruct g as [[n' l']|] eqn:Eg' end; try discriminate.
            cbn [bind fst snd] in Eg. inversion Eg; subst.
            rewrite app_length, (H1 _ eq_refl), (IHys H2 _ _ eq_refl), ES. lia. }
        unfold prodn in *. simpl. lia.
  Qed.

  (** ---- indices ---- *)
  Lemma indices_in s idx : In idx (indices s) <-> inb s idx.
  Proof.
    revert idx; induction s; intros idx; simpl.
    - split; [intros [<-|[]]; constructor | intros H; inversion H; auto].
    - rewrite in_flat_map. split.
      + intros (i & Hi & Hin). apply in_map_iff in Hin. destruct Hin as (t & <- & Ht).
        apply in_seq in Hi. constructor; [lia|]. apply IHs; auto.
      + intros H. inversion H; subst. exists x. split. apply in_seq; lia.
        apply in_map. apply IHs; auto.
  Qed.

  Lemma indices_length s : length (indices s) = prodn s.
  Proof.
    induction s; simpl; auto.
    rewrite flat_map_length_const with (m := prodn s).
    - rewrite seq_length. reflexivity.
    - intros; rewrite map_length; auto.
  Qed.

  Lemma nth_error_indices s idx k : offset s idx = Some k -> nth_error (indices s) k = Some idx.
  Proof.
    revert idx k; induction s; destruct idx; intros k H; simpl in *; try discriminate.
    - inversion H; subst; auto.
    - destruct (Nat.ltb_spec n a); try discriminate.
      destruct (offset s idx) eqn:E; try discriminate. inversion H; subst.
      rewrite nth_error_flat_map_const with (m := prodn s) (x := n).
      + rewrite nth_error_map, IHs with (idx := idx); auto.
      + intros; rewrite map_length; apply indices_length.
      + rewrite nth_error_seq; auto.
      + eapply offset_lt; eauto.
  Qed.

  Lemma tab_indices s (f : list nat -> V) : tab s f = map f (indices s).
  Proof.
    revert f; induction s; intros f; simpl; auto.
    induction (seq 0 a); simpl; auto. rewrite map_app, <- IHl, IHs, map_map. auto.
  Qed.

  (** ---- broadcasting assignment ---- *)
  Lemma opt_all_some (l : list (option V)) r : opt_all l = Some r <-> l = map Some r.
  Proof.
    revert r; induction l as [|[v|] l IH]; intros r; simpl; split; intros H.
    - inversion H; auto.
    - destruct r; simpl in H; try discriminate; auto.
    - destruct (opt_all l) eqn:E; try discriminate. inversion H; subst. simpl.
      f_equal. apply IH; auto.
    - destruct r; simpl in H; inversion H; subst. rewrite (proj2 (IH r)); auto.
    - discriminate.
    - destruct r; simpl in H; discriminate.
  Qed.

  Lemma opt_all_none (l : list (option V)) : opt_all l = None -> In None l.
  Proof.
    induction l as [|[v|] l IH]; simpl; intros H; try discriminate; auto.
    destruct (opt_all l); try discriminate. right; auto.
  Qed.

  Lemma bc_ok_refl s : bc_ok s s = true.
  Proof. induction s; simpl; auto. rewrite Nat.eqb_refl; auto. Qed.

  Lemma bc_index_same s idx : inb s idx -> bc_index s idx = idx.
  Proof.
    revert idx; induction s; intros idx H; inversion H; subst; simpl; auto.
    rewrite IHs; auto. destruct (Nat.eqb_spec a 1); f_equal; lia.
  Qed.

  Lemma bc_index_inb d s idx : bc_ok d s = true -> inb d idx -> inb s (bc_index s idx).
  Proof.
    revert s idx; induction d; destruct s; simpl; intros idx H I; try discriminate.
    - inversion I; subst. constructor.
    - inversion I; subst. apply andb_true_iff in H. destruct H as [H1 H2].
      simpl. constructor; [|apply IHd; auto].
      apply orb_true_iff in H1. rewrite !Nat.eqb_eq in H1.
      destruct (Nat.eqb_spec n 1); lia.
  Qed.


  (** [dst[:] = src] for arrays of the same shape copies src *)
  Lemma assign_all_same (dst src : arr V) :
    wf_arr src -> shape src = shape dst -> assign_all dst src = Ok src.
  Proof.
    intros W E. unfold assign_all, bc_align. rewrite E, Nat.ltb_irrefl, Nat.sub_diag. simpl skipn.
    rewrite bc_ok_refl.
    destruct (opt_all _) as [l|] eqn:EO.
    - f_equal. apply opt_all_some in EO.
      assert (data src = l) as D.
      { assert (map Some (data src) = map Some l) as M.
        { rewrite <- EO. apply nth_error_ext. intros k. rewrite !nth_error_map.
          destruct (lt_dec k (prodn (shape dst))) as [L|L].
          - destruct (offset_surj _ _ L) as [idx Hidx].
            rewrite (nth_error_indices _ _ _ Hidx). simpl.
            assert (inb (shape dst) idx) by (apply offset_inb; eauto).
            rewrite bc_index_same; auto. unfold aget; simpl. rewrite Hidx.
            destruct (nth_error (data src) k) eqn:EE; auto.
            apply nth_error_None in EE. unfold wf_arr in W. rewrite E in W. lia.
          - rewrite (proj2 (nth_error_None (data src) k)) by (unfold wf_arr in W; rewrite E in W; lia).
            rewrite (proj2 (nth_error_None (indices (shape dst)) k)) by (rewrite indices_length; lia). auto. }
        clear -M. revert l M. induction (data src) as [|x xs IH]; intros [|y ys] M; simpl in M; inversion M; subst; f_equal; auto. }
      destruct src; simpl in *; subst. f_equal; auto.
    - exfalso. apply opt_all_none in EO. apply in_map_iff in EO. destruct EO as (idx & Hn & Hin).
      apply indices_in in Hin. rewrite bc_index_same in Hn; auto.
      destruct (@aget_some (mkArr (shape dst) (data src)) idx) as [v Hv]; simpl; auto.
      + unfold wf_arr in *; simpl. congruence.
      + congruence.
  Qed.

  (** the general case: the result has the shape of [dst] and repeats [src] *)
  Lemma assign_all_spec (dst src r : arr V) :
    wf_arr src -> assign_all dst src = Ok r ->
    wf_arr r /\ shape r = shape dst /\
    exists s, bc_align (shape dst) (shape src) = Some s /\
      forall idx, inb (shape dst) idx ->
        aget r idx = aget (mkArr s (data src)) (bc_index s (skipn (length (shape dst) - length s) idx)).
  Proof.
    unfold assign_all. intros W H. destruct (bc_align _ _) as [s|] eqn:EA; try discriminate.
    destruct (bc_ok _ _) eqn:EB; try discriminate.
    destruct (opt_all _) as [l|] eqn:EO; try discriminate. inversion H; subst; clear H.
    apply opt_all_some in EO.
    assert (length l = prodn (shape dst)) as LL.
    { rewrite <- (map_length Some l), <- EO, map_length, indices_length; auto. }
    split; [|split]; simpl; auto.
    exists s. split; auto. intros idx I.
    apply offset_inb in I. destruct I as [k Hk]. unfold aget at 1; simpl. rewrite Hk.
    assert (nth_error (map Some l) k = nth_error (map Some l) k) as R by auto.
    rewrite <- EO in R at 1. rewrite !nth_error_map, (nth_error_indices _ _ _ Hk) in R. simpl in R.
    destruct (nth_error l k) eqn:E; simpl in R; inversion R; auto.
  Qed.
End Arr.
