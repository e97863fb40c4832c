(** Lemmas about the pictures of the parameters. *)
From Verif Require Import Common Common_Proofs PyStr_Model PyStr_Proofs FileName_Model FileName_Proofs Arr_Model Arr_Proofs ModelIO_Model ModelIO_Spec.
From Verif Require Import Load_Model Load_Spec Load_Proofs FileStruct_Model FileStruct_Proofs Submit2_Model Setup_Model Job_Spec Job_Proofs Job2_Proofs Grid_Model.
Local Open Scope string_scope.
Local Open Scope nat_scope.

Lemma map_res_total {A B} (g : A -> res B) (h : A -> B) l : (forall x, In x l -> g x = Ok (h x)) -> map_res g l = Ok (map h l).
Proof.
  induction l as [|x l IH]; intros K; [reflexivity|]. cbn [map_res map]. rewrite K by (left; auto). cbn [bind]. rewrite IH; [reflexivity|]. intros; apply K; right; auto.
Qed.
Lemma nth_error_firstn_skipn {A} (l : list A) m n k : k < m -> nth_error (firstn m (skipn n l)) k = nth_error l (n + k).
Proof.
  revert l k m. induction n as [|n IH]; intros l k m K; cbn [skipn Nat.add].
  - revert l k K. induction m as [|m IHm]; intros l k K; [lia|]. destruct l; destruct k; cbn; auto. apply IHm. lia.
  - destruct l as [|x l]; cbn [skipn]; [rewrite firstn_nil; destruct k; reflexivity|]. rewrite IH by auto. reflexivity.
Qed.

Section Grid.
  Context {V : Type}.
  Variable zero : V.
  Variable vint : V -> res Z.
  Variable v_of_int : Z -> V.
  Variable sign : V -> option comparison.
  Notation sign_text := (sign_text sign).

  Lemma sign_array_get (a : arr V) idx : aget (generate_sign_array sign a) idx = option_map sign_text (aget a idx).
  Proof. unfold aget, generate_sign_array. cbn [shape data]. destruct (offset (shape a) idx); [|reflexivity]. apply nth_error_map. Qed.

  Lemma slice_ok (a : arr V) n s i : wf_arr a -> shape a = n :: s -> i < n ->
    exists g, aslice a i = Ok g /\ shape g = s /\ wf_arr g /\ forall idx, aget g idx = aget a (i :: idx).
  Proof.
    intros W S I. unfold aslice. rewrite S. destruct (Nat.ltb_spec i n); [|lia]. eexists. split; [reflexivity|]. cbn [shape]. split; [reflexivity|].
    unfold wf_arr in W. rewrite S in W. cbn [prodn fold_right] in W. fold (prodn s) in W.
    assert (B : i * prodn s + prodn s <= length (data a)) by (rewrite W; nia). split.
    - unfold wf_arr. cbn [data shape]. rewrite firstn_length, skipn_length. lia.
    - intros idx. unfold aget. cbn [shape data]. rewrite S. cbn [offset]. destruct (Nat.ltb_spec i n); [|lia].
      destruct (offset s idx) as [k|] eqn:E; [|reflexivity]. apply nth_error_firstn_skipn. eapply offset_lt; eauto.
  Qed.

  (** ---- the texts ---- *)
  Definition marks_of (image : arr V) (As : nat) : list (nat * nat * string) :=
    map (fun ab => (fst ab, snd ab, match aget image [fst ab; snd ab] with Some v => sign_text v | None => "" end)) (list_prod (seq 0 As) (seq 0 As)).
  Definition full_title (title : string) (d As N : Z) : string :=
    title ++ String "010"%char ("Data Set " ++ dec d ++ " - " ++ dec As ++ " surfaces " ++ dec N ++ " normal modes").
  Lemma get2 (image : arr V) n m x y : wf_arr image -> shape image = [n; m] -> (exists v, aget image [x; y] = Some v) <-> x < n /\ y < m.
  Proof.
    intros W S. split.
    - intros [v E]. apply aget_inb in E. rewrite S in E. inversion E as [|? ? ? ? L1 E2]; subst. inversion E2; subst. auto.
    - intros [L1 L2]. apply aget_some; auto. rewrite S. repeat constructor; auto.
  Qed.
  Lemma annotate_ok f rho d image title n m As N : wf_arr image -> shape image = [n; m] -> dims_of_file vint f rho = Ok (Z.of_nat As, N) -> As <= n -> As <= m ->
    annotate vint sign f rho d image title = Ok (marks_of image As, full_title title d (Z.of_nat As) N).
  Proof.
    intros W S D L1 L2. unfold annotate. cbn [extract_dimensions]. rewrite D. cbn [bind fst snd]. rewrite Nat2Z.id.
    rewrite (map_res_total _ (fun ab => (fst ab, snd ab, match aget image [fst ab; snd ab] with Some v => sign_text v | None => "" end))); [reflexivity|].
    intros [x y] I. apply in_prod_iff in I. rewrite !in_seq in I. cbn [fst snd]. rewrite sign_array_get.
    destruct (proj2 (get2 image n m x y W S)) as [v E]; [lia|]. rewrite E. reflexivity.
  Qed.
  Lemma annotate_out f rho d image title n m As N : wf_arr image -> shape image = [n; m] -> dims_of_file vint f rho = Ok (Z.of_nat As, N) -> (n < As \/ m < As) ->
    annotate vint sign f rho d image title = Raise IndexError.
  Proof.
    intros W S D L. unfold annotate. cbn [extract_dimensions]. rewrite D. cbn [bind fst snd]. rewrite Nat2Z.id.
    set (g := fun ab : nat * nat => _). assert (K : forall l, (exists x, In x l /\ aget image [fst x; snd x] = None) -> map_res g l = Raise IndexError).
    { induction l as [|x l IH]; intros (z & I & E); [destruct I|]. cbn [map_res]. unfold g at 1. rewrite sign_array_get.
      destruct (aget image [fst x; snd x]) eqn:Ex; cbn [option_map]; [|reflexivity]. cbn [bind]. rewrite IH; [reflexivity|]. destruct I as [->|I]; [congruence|eauto]. }
    rewrite K; [reflexivity|]. exists (As - 1, As - 1). split; [apply in_prod; apply in_seq; lia|]. cbn [fst snd].
    destruct (aget image [As - 1; As - 1]) eqn:E; [|reflexivity]. assert (X : exists v, aget image [As - 1; As - 1] = Some v) by eauto. apply (get2 image n m _ _ W S) in X. lia.
  Qed.
  Lemma marks_in (image : arr V) n m As x y t : wf_arr image -> shape image = [n; m] -> As <= n -> As <= m ->
    In (x, y, t) (marks_of image As) <-> x < As /\ y < As /\ exists v, aget image [x; y] = Some v /\ t = sign_text v.
  Proof.
    intros W S L1 L2. unfold marks_of. rewrite in_map_iff. split.
    - intros ([a b] & E & I). apply in_prod_iff in I. rewrite !in_seq in I. cbn [fst snd] in E.
      destruct (proj2 (get2 image n m a b W S)) as [v Ev]; [lia|]. rewrite Ev in E. inversion E; subst. split; [lia|]. split; [lia|]. eauto.
    - intros (A1 & A2 & v & E & ->). exists (x, y). cbn [fst snd]. rewrite E. split; [reflexivity|]. apply in_prod; apply in_seq; lia.
  Qed.
  Lemma marks_nodup (image : arr V) As : NoDup (map fst (marks_of image As)).
  Proof.
    unfold marks_of. rewrite map_map. cbn [fst]. rewrite (map_ext _ (fun ab : nat * nat => ab)) by (intros [a b]; reflexivity). rewrite map_id.
    assert (G : forall (l l' : list nat), NoDup l -> NoDup l' -> NoDup (list_prod l l')).
    { clear. induction l as [|a l IH]; intros l' N1 N2; cbn [list_prod]; [constructor|]. inversion N1; subst.
      assert (Na : NoDup (map (fun y => (a, y)) l')) by (apply FinFun.Injective_map_NoDup; auto; intros u w E; congruence).
      assert (Dj : forall z, In z (map (fun y => (a, y)) l') -> ~ In z (list_prod l l')).
      { intros [u w] I1 I2. apply in_map_iff in I1. destruct I1 as (q & E & _). apply in_prod_iff in I2. inversion E; subst. tauto. }
      revert Na Dj. generalize (map (fun y : nat => (a, y)) l'). intros k Nk. induction k as [|z k IHk]; intros Dj; [apply IH; auto|]. cbn [app]. inversion Nk; subst. constructor.
      - rewrite in_app_iff. intros [|]; [tauto|]. apply (Dj z); [left; auto|auto].
      - apply IHk; auto. intros; apply Dj; right; auto. }
    apply G; apply seq_NoDup.
  Qed.
  Lemma single_ok f FS image filename title n m As N : wf_arr image -> shape image = [n; m] -> dims_of_file vint f (path_rho_model FS) = Ok (Z.of_nat As, N) -> As <= n -> As <= m ->
    plot_single vint sign f FS image filename title =
    ([{| fig_path := join (path_vib_plots FS) filename; fig_title := full_title title (id_data FS) (Z.of_nat As) N; fig_image := image; fig_marks := marks_of image As |}], Ok tt).
  Proof. intros W S D L1 L2. unfold plot_single. rewrite S. cbn [bind]. erewrite annotate_ok by eauto. reflexivity. Qed.


  (** ---- the model files ---- *)
  Lemma parameter_ok k A N (f : fs V) path o m s : f path = Some (CJson o) -> model_file vint k A N o -> In (vmk_value m) (map fst o) -> spec_shape k A N m = Some s ->
    exists l l' a, read_json f path = Ok l /\ parameter v_of_int l m = Ok a /\ wf_arr a /\ map Z.of_nat (shape a) = s /\ dmem key_eqb l (KS (vmk_value m)) = true /\
      (forall idx v, aget a idx = Some v -> file_number zero o m idx v) /\ In (vmk_value m, JList l') o.
  Proof.
    intros F MF I S. destruct MF as [U Kn _ _ Ar]. apply in_map_iff in I. destruct I as ([s' j] & E & I). cbn [fst] in E. subst s'.
    destruct (Ar m j s I S) as (l & a & -> & Na & Sh). unfold read_json. rewrite F. eexists. exists l, a. split; [reflexivity|].
    assert (G : dget key_eqb (map (fun sj : string * jval V => (KS (fst sj), snd sj)) o) (KS (vmk_value m)) = Some (JList l)).
    { clear -U I. induction o as [|[s' j'] o IH]; [destruct I|]. cbn [map dget fst snd key_eqb]. cbn [map fst] in U. inversion U; subst. destruct I as [I|I].
      - inversion I; subst. rewrite String.eqb_refl. reflexivity.
      - destruct (String.eqb_spec (vmk_value m) s'); [|auto]. subst. exfalso. apply H1. apply in_map_iff. exists (vmk_value m, JList l). auto. }
    split; [unfold parameter, jitem; rewrite G; cbn [bind to_array]; exact Na|]. split; [eapply np_array_wf; eauto|]. split; [auto|]. split; [unfold dmem; rewrite G; reflexivity|].
    split; [|auto]. intros idx v E. econstructor; eauto.
  Qed.
End Grid.
