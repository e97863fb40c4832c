(** Proofs about Create_Model.v: generated models. *)
From Verif Require Import Common Common_Proofs Arr_Model Arr_Proofs ModelIO_Model ModelIO_Spec ModelIO_Proofs ModelIO2_Proofs SameModel_Model SameModel_Proofs Create_Model Create_Spec Create_Proofs Create2_Proofs.
Local Open Scope nat_scope.

Lemma list_prod_app {X Y} (l1 l2 : list X) (m : list Y) : list_prod (l1 ++ l2) m = list_prod l1 m ++ list_prod l2 m.
Proof. induction l1; simpl; auto. rewrite IHl1, app_assoc. auto. Qed.

Lemma seq_cut n i : i < n -> seq 0 n = seq 0 i ++ i :: seq (S i) (n - S i).
Proof. intros H. replace n with (i + S (n - S i)) at 1 by lia. rewrite seq_app. auto. Qed.

Lemma inb_dec s i : inb s i \/ ~ inb s i.
Proof.
  destruct (offset s i) as [k|] eqn:E.
  - left. apply offset_inb. eauto.
  - right. intros H. apply offset_inb in H as [k H]. congruence.
Qed.

Section Gen.
  Context {V : Type}.
  Variables (zero : V) (add : V -> V -> V) (opp : V -> V) (div : V -> V -> V).
  Variable isz : V -> bool.
  Variable vint : V -> res Z.
  Variable close : V -> V -> bool.
  Variable rnd : nat -> V -> V -> list nat -> V.
  Variable linspace : V -> V -> nat -> nat -> V.
  Hypothesis add_zero_r : forall x, add x zero = x.
  Hypothesis add_zero_l : forall x, add zero x = x.
  Hypothesis close_refl : forall x, close x x = true.
  Notation getd := (getd zero).

  Ltac inbs := repeat match goal with
    | H : inb (_ :: _) _ |- _ => inversion H; subst; clear H
    | H : Forall2 lt _ (_ :: _) |- _ => inversion H; subst; clear H
    | H : inb [] _ |- _ => inversion H; subst; clear H
    | H : Forall2 lt _ [] |- _ => inversion H; subst; clear H
    end.
  Ltac inb_solve := unfold inb; repeat (constructor; auto).

  Lemma getd_build s (f : list nat -> V) idx : inb s idx -> getd (abuild s f) idx = f idx.
  Proof. intros H. unfold Create_Model.getd. rewrite aget_abuild; auto. Qed.
  Lemma get_getd (a : arr V) idx : wf_arr a -> inb (shape a) idx -> aget a idx = Some (getd a idx).
  Proof. intros W H. unfold Create_Model.getd. destruct (aget_some a idx W H) as [v ->]. auto. Qed.

  Lemma sym_fill_ok n (x : arr V) : shape x = [n; n] ->
    exists y, sym_fill zero add x = Ok y /\ shape y = [n; n] /\ wf_arr y /\
      forall a b, a < n -> b < n -> aget y [a; b] = Some (getd x [Nat.max a b; Nat.min a b]).
  Proof.
    intros Hs. unfold sym_fill, add_arr. cbn [transpose tril abuild shape map nth]. rewrite Hs. cbn [nth]. rewrite list_eqb_refl.
    eexists. split; [reflexivity|]. split; [reflexivity|]. split; [apply wf_abuild|].
    intros a b Ha Hb. rewrite aget_abuild by inb_solve. f_equal.
    unfold tril. rewrite Hs. rewrite getd_build by inb_solve. unfold transpose. cbn [shape abuild length seq map nth pos Nat.eqb].
    rewrite getd_build by inb_solve. cbn [nth]. rewrite getd_build by inb_solve. cbn [nth].
    destruct (Z.leb_spec (Z.of_nat b) (Z.of_nat a + 0)); destruct (Z.leb_spec (Z.of_nat a) (Z.of_nat b + -1)); try lia.
    - rewrite Nat.max_l, Nat.min_r by lia. apply add_zero_r.
    - rewrite Nat.max_r, Nat.min_l by lia. apply add_zero_l.
  Qed.

  Lemma set_sub_ok (acc sub : arr V) s t pre : shape acc = s ++ t -> wf_arr acc -> shape sub = t -> wf_arr sub -> inb s pre ->
    exists acc', set_sub zero acc pre sub = Ok acc' /\ shape acc' = s ++ t /\ wf_arr acc' /\
      forall p q, inb s p -> inb t q -> aget acc' (p ++ q) = if list_eqb p pre then aget sub q else aget acc (p ++ q).
  Proof.
    intros Ha Wa Hb Wb Hp. unfold set_sub. pose proof (Forall2_length lt _ _ Hp) as L.
    assert (in_bounds pre (shape acc) = true) as ->.
    { rewrite Ha. clear - Hp. induction Hp; simpl; auto. destruct (Nat.ltb_spec x y); [auto|lia]. }
    assert (skipn (length pre) (shape acc) = t) as ->. { rewrite Ha, L, skipn_app, skipn_all, Nat.sub_diag. auto. }
    rewrite Hb, list_eqb_refl. eexists. split; [reflexivity|]. split; [auto|]. split; [apply wf_abuild|].
    intros p q Hip Hiq. pose proof (Forall2_length lt _ _ Hip) as L'.
    assert (Hin : inb (shape acc) (p ++ q)). { rewrite Ha. apply inb_split; auto. }
    rewrite aget_abuild by auto. assert (length pre = length p) as -> by congruence.
    rewrite firstn_app, Nat.sub_diag, firstn_all, skipn_app, skipn_all, Nat.sub_diag. cbn [firstn skipn app]. rewrite app_nil_r.
    destruct (list_eqb p pre); symmetry; apply get_getd; auto; congruence.
  Qed.

  (** A loop of assignments to sub-arrays.  The last one decides. *)
  Lemma set_loop {X} (body : arr V -> X -> res (arr V)) (tgt : X -> list nat -> Prop) (val : X -> list nat -> V) s t :
    (forall x p, tgt x p \/ ~ tgt x p) ->
    forall L,
    (forall acc x, In x L -> shape acc = s ++ t -> wf_arr acc ->
       exists acc', body acc x = Ok acc' /\ shape acc' = s ++ t /\ wf_arr acc' /\
         forall p q, inb s p -> inb t q -> (tgt x p -> aget acc' (p ++ q) = Some (val x q)) /\ (~ tgt x p -> aget acc' (p ++ q) = aget acc (p ++ q))) ->
    forall acc, shape acc = s ++ t -> wf_arr acc ->
    exists acc', for_res body L acc = Ok acc' /\ shape acc' = s ++ t /\ wf_arr acc' /\
      forall p q, inb s p -> inb t q ->
        (forall L1 x L2, L = L1 ++ x :: L2 -> tgt x p -> (forall y, In y L2 -> ~ tgt y p) -> aget acc' (p ++ q) = Some (val x q)) /\
        ((forall y, In y L -> ~ tgt y p) -> aget acc' (p ++ q) = aget acc (p ++ q)).
  Proof.
    intros Hdec L Hb. induction L as [|z L IH] using rev_ind; intros acc Hs Wa.
    { exists acc. cbn. split; [auto|]. split; [auto|]. split; [auto|]. intros p q _ _. split; auto. intros L1 x L2 E. destruct L1; discriminate. }
    destruct (IH (fun acc x Hx => Hb acc x (in_or_app _ _ _ (or_introl Hx))) acc Hs Wa) as (a1 & E1 & S1 & W1 & R1).
    destruct (Hb a1 z) as (a2 & E2 & S2 & W2 & R2); auto. { apply in_or_app. right. left. auto. }
    exists a2. rewrite for_res_app, E1. cbn [bind for_res]. rewrite E2. cbn [bind]. split; [auto|]. split; [auto|]. split; [auto|].
    intros p q Hp Hq. destruct (R1 p q Hp Hq) as [R1a R1b]. destruct (R2 p q Hp Hq) as [R2a R2b]. split.
    - intros L1 x L2 E Hx Hl. destruct (exists_last (l := x :: L2)) as (L2' & y & Ey); [discriminate|].
      rewrite Ey, app_assoc in E. apply app_inj_tail in E as [-> ->].
      destruct L2' as [|x' L2']; cbn in Ey; injection Ey as -> ->.
      + apply R2a. auto.
      + rewrite R2b by (apply Hl; apply in_or_app; right; left; auto). eapply R1a; eauto.
        intros y' Hy'. apply Hl. apply in_or_app. auto.
    - intros Hl. rewrite R2b by (apply Hl, in_or_app; right; left; auto). apply R1b. intros y Hy. apply Hl, in_or_app. auto.
  Qed.

  Lemma uniform_ok call lo hi n : uniform rnd call lo hi [Z.of_nat n; Z.of_nat n] = Ok (abuild [n; n] (rnd call lo hi)).
  Proof. unfold uniform. cbn. rewrite !Nat2Z.id. destruct (Z.leb_spec 0 (Z.of_nat n)); [auto|lia]. Qed.

  Lemma linear_ok first (G1 disp : arr V) A N : shape G1 = [N; A; A] -> wf_arr G1 ->
    exists G, generate_linear_terms zero add opp rnd first G1 (Z.of_nat A) disp N = Ok G /\ shape G = [N; A; A] /\ wf_arr G /\
      forall i a b, i < N -> a < A -> b < A ->
        aget G [i; a; b] = Some (rnd (first + i) (opp (getd disp [i])) (getd disp [i]) [Nat.max a b; Nat.min a b]).
  Proof.
    intros Hs W. unfold generate_linear_terms.
    destruct (set_loop (fun acc i => do x <- uniform rnd (first + i) (opp (getd disp [i])) (getd disp [i]) [Z.of_nat A; Z.of_nat A]; do s <- sym_fill zero add x; set_sub zero acc [i] s)
      (fun i p => p = [i]) (fun i q => rnd (first + i) (opp (getd disp [i])) (getd disp [i]) [Nat.max (nth 0 q 0) (nth 1 q 0); Nat.min (nth 0 q 0) (nth 1 q 0)]) [N] [A; A]) with (L := seq 0 N) (acc := G1) as (G & E & S & WG & R); auto.
    - intros x p. destruct (list_eq_dec Nat.eq_dec p [x]); auto.
    - intros acc i Hi Ha Wa. apply in_seq in Hi. rewrite uniform_ok. cbn [bind]. destruct (sym_fill_ok A (abuild [A; A] (rnd (first + i) (opp (getd disp [i])) (getd disp [i])))) as (y & -> & Sy & Wy & Ry); auto.
      cbn [bind]. destruct (set_sub_ok acc y [N] [A; A] [i]) as (acc' & -> & S' & W' & R'); auto. { inb_solve. lia. }
      exists acc'. split; [auto|]. split; [auto|]. split; [auto|]. intros p q Hp Hq. rewrite R' by auto. destruct (list_eqb p [i]) eqn:Ep.
      + apply list_eqb_eq in Ep. subst. split; [intros _|tauto]. inbs. rewrite Ry by auto. rewrite getd_build; [auto|]. inb_solve; lia.
      + split; [|auto]. intros ->. rewrite list_eqb_refl in Ep. discriminate.
    - exists G. split; auto. split; auto. split; auto. intros i a b Hi Ha Hb.
      destruct (R [i] [a; b]) as [R' _]; [inb_solve|inb_solve|]. cbn [app] in R'. rewrite (R' _ i _ (seq_cut N i Hi)); auto.
      intros y Hy [= ->]. apply in_seq in Hy. lia.
  Qed.

  Lemma prod_cut N i j : i < N -> j < N ->
    list_prod (seq 0 N) (seq 0 N) =
      (list_prod (seq 0 i) (seq 0 N) ++ map (fun y => (i, y)) (seq 0 j)) ++ (i, j) :: (map (fun y => (i, y)) (seq (S j) (N - S j)) ++ list_prod (seq (S i) (N - S i)) (seq 0 N)).
  Proof.
    intros Hi Hj. rewrite (seq_cut N i Hi) at 1. rewrite list_prod_app. cbn [list_prod]. rewrite (seq_cut N j Hj) at 2.
    rewrite map_app. cbn [map]. rewrite <- !app_assoc. auto.
  Qed.
  Lemma after_cut N i j p : In p (map (fun y => (i, y)) (seq (S j) (N - S j)) ++ list_prod (seq (S i) (N - S i)) (seq 0 N)) ->
    (fst p = i /\ j < snd p) \/ i < fst p.
  Proof.
    intros H. apply in_app_or in H as [H|H].
    - apply in_map_iff in H as (y & <- & H). apply in_seq in H. cbn. lia.
    - destruct p. apply in_prod_iff in H as [H _]. apply in_seq in H. cbn. lia.
  Qed.

  Lemma quadratic_ok first (G2 disp : arr V) A N : shape G2 = [N; N; A; A] -> wf_arr G2 ->
    exists G, generate_quadratic_terms zero add opp rnd first G2 (Z.of_nat A) disp N = Ok G /\ shape G = [N; N; A; A] /\ wf_arr G /\
      forall i j a b, i < N -> j < N -> a < A -> b < A ->
        aget G [i; j; a; b] = Some (rnd (first + (Nat.max i j * N + Nat.min i j)) (opp (getd disp [Nat.max i j; Nat.min i j])) (getd disp [Nat.max i j; Nat.min i j]) [Nat.max a b; Nat.min a b]).
  Proof.
    intros Hs W. unfold generate_quadratic_terms.
    match goal with |- context [for_res ?bd _ _] => set (body := bd) end.
    destruct (set_loop body (fun ij p => p = [fst ij; snd ij] \/ p = [snd ij; fst ij])
      (fun ij q => rnd (first + (fst ij * N + snd ij)) (opp (getd disp [fst ij; snd ij])) (getd disp [fst ij; snd ij]) [Nat.max (nth 0 q 0) (nth 1 q 0); Nat.min (nth 0 q 0) (nth 1 q 0)]) [N; N] [A; A]) with (L := list_prod (seq 0 N) (seq 0 N)) (acc := G2) as (G & E & S & WG & R); auto.
    - intros x p. destruct (list_eq_dec Nat.eq_dec p [fst x; snd x]); auto. destruct (list_eq_dec Nat.eq_dec p [snd x; fst x]); tauto.
    - intros acc [i j] Hi Ha Wa. apply in_prod_iff in Hi as [Hi Hj]. apply in_seq in Hi, Hj. unfold body. rewrite uniform_ok. cbn [bind fst snd].
      destruct (sym_fill_ok A (abuild [A; A] (rnd (first + (i * N + j)) (opp (getd disp [i; j])) (getd disp [i; j])))) as (y & -> & Sy & Wy & Ry); auto.
      cbn [bind]. destruct (set_sub_ok acc y [N; N] [A; A] [i; j]) as (acc1 & -> & S1 & W1 & R1); auto. { inb_solve; lia. }
      cbn [bind]. destruct (set_sub_ok acc1 y [N; N] [A; A] [j; i]) as (acc' & -> & S' & W' & R'); auto. { inb_solve; lia. }
      exists acc'. split; [auto|]. split; [auto|]. split; [auto|]. intros p q Hp Hq. rewrite R', R1 by auto.
      assert (Hy : aget y q = Some (rnd (first + (i * N + j)) (opp (getd disp [i; j])) (getd disp [i; j]) [Nat.max (nth 0 q 0) (nth 1 q 0); Nat.min (nth 0 q 0) (nth 1 q 0)])).
      { clear - Ry Hq. inbs. rewrite Ry by auto. cbn [nth]. rewrite getd_build; [auto|]. inb_solve; lia. }
      rewrite Hy. destruct (list_eqb p [j; i]) eqn:E1; [|destruct (list_eqb p [i; j]) eqn:E2].
      + apply list_eqb_eq in E1. tauto.
      + apply list_eqb_eq in E2. tauto.
      + split; [|auto]. intros [-> | ->]; rewrite list_eqb_refl in *; discriminate.
    - exists G. split; auto. split; auto. split; auto. intros i j a b Hi Hj Ha Hb.
      destruct (R [i; j] [a; b]) as [R' _]; [inb_solve|inb_solve|]. cbn [app] in R'.
      rewrite (R' _ (Nat.max i j, Nat.min i j) _ (prod_cut N (Nat.max i j) (Nat.min i j) ltac:(lia) ltac:(lia))); cbn [fst snd nth]; auto.
      + destruct (Nat.le_ge_cases i j); [rewrite Nat.max_r, Nat.min_l by lia|rewrite Nat.max_l, Nat.min_r by lia]; auto.
      + intros y Hy H. apply after_cut in Hy. destruct H as [[= -> ->]|[= -> ->]]; lia.
  Qed.

  (** ** Diagonal models *)
  Lemma diag_sub (G : arr V) s A pre : shape G = s ++ [A; A] -> wf_arr G -> inb s pre ->
    shape (diag zero (get_sub zero G pre)) = [A] /\ wf_arr (diag zero (get_sub zero G pre)) /\
    forall a, a < A -> aget (diag zero (get_sub zero G pre)) [a] = aget G (pre ++ [a; a]).
  Proof.
    intros Hs W Hp. pose proof (Forall2_length lt _ _ Hp) as L.
    assert (Hsh : shape (get_sub zero G pre) = [A; A]). { unfold get_sub. cbn [shape abuild]. rewrite Hs, L, skipn_app, skipn_all, Nat.sub_diag. auto. }
    unfold diag. rewrite Hsh. cbn [nth]. rewrite Nat.min_id. split; [reflexivity|]. split; [apply wf_abuild|].
    intros a Ha. rewrite aget_abuild by inb_solve. cbn [nth]. rewrite (get_getd G); auto.
    - f_equal. unfold get_sub in *. cbn [shape abuild] in Hsh. rewrite Hsh. rewrite getd_build by inb_solve. auto.
    - rewrite Hs. apply inb_split; auto. split; auto. inb_solve.
  Qed.

  Lemma diag_loop {X} (ix : X -> list nat) (G D : arr V) s A (L : list X) :
    shape G = s ++ [A; A] -> wf_arr G -> shape D = s ++ [A] -> wf_arr D -> (forall x, In x L -> inb s (ix x)) -> (forall p, inb s p -> exists L1 x L2, L = L1 ++ x :: L2 /\ p = ix x) ->
    exists D', for_res (fun acc x => set_sub zero acc (ix x) (diag zero (get_sub zero G (ix x)))) L D = Ok D' /\ shape D' = s ++ [A] /\ wf_arr D' /\
      forall p a, inb s p -> a < A -> aget D' (p ++ [a]) = aget G (p ++ [a; a]).
  Proof.
    intros HG WG HD WD HL Hcov.
    destruct (set_loop (fun acc x => set_sub zero acc (ix x) (diag zero (get_sub zero G (ix x)))) (fun x p => p = ix x)
      (fun x q => getd G (ix x ++ [nth 0 q 0; nth 0 q 0])) s [A]) with (L := L) (acc := D) as (D' & E & S & W & R); auto.
    - intros x p. destruct (list_eq_dec Nat.eq_dec p (ix x)); auto.
    - intros acc x Hx Ha Wa. destruct (diag_sub G s A (ix x)) as (S1 & W1 & R1); auto.
      destruct (set_sub_ok acc _ s [A] (ix x) Ha Wa S1 W1) as (acc' & -> & S' & W' & R'); auto.
      exists acc'. split; [auto|]. split; [auto|]. split; [auto|]. intros p q Hp Hq. rewrite R' by auto. destruct (list_eqb p (ix x)) eqn:E.
      + apply list_eqb_eq in E. subst. split; [intros _|tauto]. inbs. rewrite R1 by auto. apply get_getd; auto. rewrite HG. apply inb_split; [apply (Forall2_length lt); apply HL; auto|]. split; auto. cbn. inb_solve.
      + split; auto. intros ->. rewrite list_eqb_refl in E. discriminate.
    - exists D'. split; [auto|]. split; [auto|]. split; [auto|]. intros p a Hp Ha.
      (* the last assignment to [p] *)
      assert (Hlast : exists L1 x L2, L = L1 ++ x :: L2 /\ p = ix x /\ forall y, In y L2 -> p <> ix y).
      { destruct (Hcov p Hp) as (L1 & x & L2 & -> & ->). clear - V. revert L1 x.
        induction L2 as [|y L2 IH]; intros L1 x. { exists L1, x, []. split; auto. }
        destruct (in_dec (list_eq_dec Nat.eq_dec) (ix x) (map ix (y :: L2))) as [Hin|Hn].
        - assert (exists L3 z L4, L1 ++ x :: y :: L2 = L3 ++ z :: L4 /\ ix x = ix z /\ (length L4 <= length L2)) as (L3 & z & L4 & E1 & E2 & E3).
          { apply in_map_iff in Hin as (z & Hz & Hin). apply in_split in Hin as (M1 & M2 & E). exists (L1 ++ x :: M1), z, M2. rewrite E, <- app_assoc. split; auto. split; auto.
            assert (length (y :: L2) = length (M1 ++ z :: M2)) as EL by (rewrite E; auto). rewrite app_length in EL. cbn in EL. lia. }
          rewrite E1. clear IH E1 Hin. rewrite E2. clear E2. remember (length L2) as n eqn:En. clear En x y L2.
          revert L3 z L4 E3. induction n as [|n IHn]; intros L3 z L4 E3.
          + destruct L4; [|cbn in E3; lia]. exists L3, z, []. split; auto.
          + destruct (in_dec (list_eq_dec Nat.eq_dec) (ix z) (map ix L4)) as [Hin|Hn].
            * apply in_map_iff in Hin as (w & Hw & Hin). apply in_split in Hin as (M1 & M2 & ->). rewrite app_length in E3. cbn in E3.
              destruct (IHn (L3 ++ z :: M1) w M2) as (K1 & k & K2 & EK & Ek & Hk); [lia|]. exists K1, k, K2. rewrite <- EK, <- app_assoc. split; auto. split; [congruence|]. intros; rewrite <- Hw; auto.
            * exists L3, z, L4. split; auto. split; auto. intros w Hw Ew. apply Hn. rewrite Ew. apply in_map; auto.
        - exists L1, x, (y :: L2). split; auto. split; auto. intros z Hz Ez. apply Hn. rewrite Ez. apply in_map; auto. }
      destruct Hlast as (L1 & x & L2 & EL & -> & HN). destruct (R (ix x) [a]) as [R' _]; auto. { inb_solve. }
      rewrite (R' _ x _ EL) by auto. cbn [nth]. symmetry. apply get_getd; auto. rewrite HG. apply inb_split; [apply (Forall2_length lt); auto|]. split; auto. inb_solve.
  Qed.

  (** ** Whole models *)
  Lemma zeros_nat k A N : zeros_template zero k (Z.of_nat A) (Z.of_nat N) =
    Ok ((KV N_, PInt (Z.of_nat N)) :: (KV A_, PInt (Z.of_nat A)) ::
        map (fun m => (KV m, PArr (afull (match mode_axes m with Some n => repeat N n ++ repeat A (surface_axes k m) | None => [] end) zero))) [E_; w_; G1_; G2_; G3_; G4_]).
  Proof.
    unfold zeros_template, np_zeros. assert (HA : (0 <=? Z.of_nat A)%Z = true) by (apply Z.leb_le; lia). assert (HN : (0 <=? Z.of_nat N)%Z = true) by (apply Z.leb_le; lia).
    destruct k; cbn -[Z.of_nat Z.to_nat afull Z.leb]; rewrite ?HA, ?HN; cbn -[Z.of_nat Z.to_nat afull Z.leb]; rewrite !Nat2Z.id; reflexivity.
  Qed.

  Definition gens := generate_model zero add opp div vint close rnd linspace.

  Lemma aget_full s (v : V) idx : inb s idx -> aget (afull s v) idx = Some v.
  Proof. intros H. unfold afull. rewrite aget_abuild; auto. Qed.

  Theorem generated_coupled (p : gen_params V) A N : g_diagonal p = false -> g_states p = Z.of_nat A -> g_modes p = Z.of_nat N ->
    let w i := linspace (fst (g_freq p)) (snd (g_freq p)) N i in
    exists d, gens p = Ok d /\ dict_ok d /\ known_keys d /\ (forall m, exists v, has d (KV m) v) /\
      valid vint Coupled (Z.of_nat A) (Z.of_nat N) d /\ surface_symmetric d /\ mode_symmetric d /\
      (forall i, i < N -> reads zero d w_ [i] (w i)) /\
      (forall a b, a < A -> b < A -> reads zero d E_ [a; b] (rnd 0 (fst (g_energy p)) (snd (g_energy p)) [Nat.max a b; Nat.min a b])) /\
      (forall i a b, i < N -> a < A -> b < A ->
         reads zero d G1_ [i; a; b] (rnd (1 + i) (opp (div (g_linear p) (w i))) (div (g_linear p) (w i)) [Nat.max a b; Nat.min a b])) /\
      (forall m n idx, In m [G2_; G3_; G4_] -> mode_axes m = Some n -> inb (repeat N n ++ [A; A]) idx -> reads zero d m idx zero).
  Proof.
    intros HD HA HN w. unfold gens, generate_model. rewrite HD, HA, HN, zeros_nat. cbn [bind].
    unfold np_linspace. destruct (Z.leb_spec 0 (Z.of_nat N)); [|lia]. cbn [bind]. rewrite Nat2Z.id.
    set (wa := abuild [N] _). rewrite uniform_ok. cbn [bind].
    destruct (sym_fill_ok A (abuild [A; A] (rnd 0 (fst (g_energy p)) (snd (g_energy p))))) as (ea & -> & Se & We & Re); auto. cbn [bind].
    cbn [map mode_axes surface_axes repeat app].
    set (disp := abuild (shape wa) _).
    destruct (linear_ok 1 (afull [N; A; A] zero) disp A N) as (ga & Eg & Sg & Wg & Rg); auto. { apply wf_afull. }
    unfold marr, mitem, mget, mset. cbn [dget dset key_eqb vmk_eqb Nat.eqb bind fst snd]. 
    rewrite Eg. cbn [bind dget dset key_eqb vmk_eqb].
    match goal with |- exists d, (do b <- symmetric_in_surfaces _ _ _ ?dd; _) = _ /\ _ => set (d := dd) end.
    assert (Hdisp : forall i, i < N -> getd disp [i] = div (g_linear p) (w i)).
    { intros i Hi. unfold disp. rewrite getd_build by (unfold wa; inb_solve). f_equal. unfold wa. rewrite getd_build by inb_solve. auto. }
    assert (D : dict_ok d).
    { split. { unfold d. cbn. repeat constructor; cbn; intuition discriminate. }
      intros k a Ha. unfold has, d in Ha. cbn [In] in Ha. repeat destruct Ha as [Ha|Ha]; inv Ha; auto using wf_afull. unfold wa. apply wf_abuild. }
    assert (K : known_keys d).
    { intros k v Hk. unfold has, d in Hk. cbn [In] in Hk. repeat destruct Hk as [Hk|Hk]; inv Hk; eauto. }
    assert (HK : forall m, exists v, has d (KV m) v). { intros m. unfold has, d. cbn [In]. destruct m; eexists; tauto. }
    assert (Va : valid vint Coupled (Z.of_nat A) (Z.of_nat N) d).
    { split. { split; eexists; (split; [unfold has, d; cbn [In]; eauto|constructor]). }
      intros m v s Hm Hs. unfold has, d in Hm. cbn [In] in Hm. repeat destruct Hm as [Hm|Hm]; inv Hm; inv Hs; eexists; (split; [reflexivity|]); rewrite ?Se, ?Sg; reflexivity. }
    assert (SS : surface_symmetric d).
    { intros m a pre i j Hm Ha. 
      assert (Hcase : forall s (z : arr V), shape z = s ++ [A; A] -> wf_arr z -> (forall p0 i j, inb s p0 -> i < A -> j < A -> aget z (p0 ++ [i; j]) = aget z (p0 ++ [j; i])) -> aget z (pre ++ [i; j]) = aget z (pre ++ [j; i])).
      { intros s z Hz Wz Hzz. destruct (Nat.eq_dec (length pre) (length s)) as [El|El].
        - destruct (inb_dec s pre) as [Hp|Hp].
          + destruct (lt_dec i A); [destruct (lt_dec j A); [apply Hzz; auto|]|]; rewrite !aget_none; auto; rewrite Hz, inb_split by auto; intros [_ Hq]; inbs; lia.
          + rewrite !aget_none; auto; rewrite Hz, inb_split by auto; intros [Hq _]; auto.
        - rewrite !aget_none; auto; rewrite Hz; intros Hq; apply (Forall2_length lt) in Hq; rewrite !app_length in Hq; cbn in Hq; lia. }
      unfold has, d in Ha. cbn [In] in Ha. repeat destruct Ha as [Ha|Ha]; inv Ha.
      - apply (Hcase []); auto. intros p0 i0 j0 Hp Hi Hj. inbs. cbn. rewrite !Re by auto. rewrite Nat.max_comm, Nat.min_comm. auto.
      - cbn in Hm. intuition discriminate.
      - apply (Hcase [N]); auto. intros p0 i0 j0 Hp Hi Hj. inbs. cbn. rewrite !Rg by auto. rewrite (Nat.max_comm i0), (Nat.min_comm i0). auto.
      - apply (Hcase [N; N]); auto using wf_afull. intros p0 i0 j0 Hp Hi Hj. rewrite !aget_full; auto; inbs; cbn; inb_solve.
      - apply (Hcase [N; N; N]); auto using wf_afull. intros p0 i0 j0 Hp Hi Hj. rewrite !aget_full; auto; inbs; cbn; inb_solve.
      - apply (Hcase [N; N; N; N]); auto using wf_afull. intros p0 i0 j0 Hp Hi Hj. rewrite !aget_full; auto; inbs; cbn; inb_solve. }
    assert (MS : mode_symmetric d).
    { assert (Hz : forall s i i', (inb s i <-> inb s i') -> aget (afull s zero) i = aget (afull s zero) i').
      { intros s i i' Hi. destruct (inb_dec s i) as [Hy|Hy].
        - rewrite !aget_full; auto. apply Hi. auto.
        - rewrite !aget_none; auto. intros Hy'. apply Hy, Hi. auto. }
      split.
      - intros a i j x y Ha. unfold has, d in Ha. cbn [In] in Ha. repeat destruct Ha as [Ha|Ha]; inv Ha.
        apply Hz. split; intros Hq; inbs; inb_solve.
      - intros a i j k l x y Ha. unfold has, d in Ha. cbn [In] in Ha. repeat destruct Ha as [Ha|Ha]; inv Ha.
        apply Hz. split; intros Hq; inbs; inb_solve. }
    exists d. split.
    { destruct (surfaces_iff zero isz vint close A N d D Va K) as (c1 & -> & H1). rewrite (proj2 H1 (surface_close_refl close close_refl d SS)). cbn [bind passert].
      destruct (modes_iff zero vint close A N d D Va) as (c2 & -> & H2). rewrite (proj2 H2 (mode_close_refl close close_refl d MS)). reflexivity. }
    split; [auto|]. split; [auto|]. split; [auto|]. split; [auto|]. split; [auto|]. split; [auto|]. split; [|split; [|split]].
    - intros i Hi. apply reads_arr with wa. { unfold has, d. cbn [In]. auto. } unfold wa. rewrite aget_abuild by inb_solve. auto.
    - intros a b Ha Hb. apply reads_arr with ea. { unfold has, d. cbn [In]. auto. } rewrite Re by auto. rewrite getd_build; [auto|]. inb_solve; lia.
    - intros i a b Hi Ha Hb. apply reads_arr with ga. { unfold has, d. cbn [In]. auto 10. } rewrite Rg by auto. rewrite Hdisp by auto. auto.
    - intros m n idx Hm Hn Hi. eapply reads_arr; [|apply aget_full; exact Hi]. unfold has, d. cbn [In].
      destruct Hm as [<-|[<-|[<-|[]]]]; inv Hn; cbn; auto 12.
  Qed.

  Theorem generated_diagonal (p : gen_params V) A N : g_diagonal p = true -> g_states p = Z.of_nat A -> g_modes p = Z.of_nat N ->
    let w i := linspace (fst (g_freq p)) (snd (g_freq p)) N i in
    exists d, gens p = Ok d /\ dict_ok d /\ known_keys d /\ (forall m, exists v, has d (KV m) v) /\
      valid vint Diagonal (Z.of_nat A) (Z.of_nat N) d /\
      (forall i, i < N -> reads zero d w_ [i] (w i)) /\
      (forall a, a < A -> reads zero d E_ [a] (rnd 0 (fst (g_energy p)) (snd (g_energy p)) [a; a])) /\
      (forall i a, i < N -> a < A ->
         reads zero d G1_ [i; a] (rnd (1 + i) (opp (div (g_linear p) (w i))) (div (g_linear p) (w i)) [a; a])) /\
      (forall m n idx, In m [G2_; G3_; G4_] -> mode_axes m = Some n -> inb (repeat N n ++ [A]) idx -> reads zero d m idx zero).
  Proof.
    intros HD HA HN w. unfold gens, generate_model. rewrite HD, HA, HN, !zeros_nat. cbn [bind].
    unfold np_linspace. destruct (Z.leb_spec 0 (Z.of_nat N)); [|lia]. cbn [bind]. rewrite Nat2Z.id.
    set (wa := abuild [N] _). rewrite uniform_ok. cbn [bind].
    destruct (sym_fill_ok A (abuild [A; A] (rnd 0 (fst (g_energy p)) (snd (g_energy p))))) as (ea & -> & Se & We & Re); auto. cbn [bind].
    cbn [map mode_axes surface_axes repeat app].
    set (disp := abuild (shape wa) _).
    destruct (linear_ok 1 (afull [N; A; A] zero) disp A N) as (ga & Eg & Sg & Wg & Rg); auto. { apply wf_afull. }
    unfold marr, mitem, mget, mset. cbn [dget dset key_eqb vmk_eqb Nat.eqb bind fst snd].
    rewrite Eg. cbn [bind dget dset key_eqb vmk_eqb].
    destruct (diag_loop (fun i => [i]) ga (afull [N; A] zero) [N] A (seq 0 N)) as (D1 & -> & S1 & W1 & R1); auto using wf_afull.
    { intros x Hx. apply in_seq in Hx. inb_solve. lia. }
    { intros q Hq. inbs. rewrite (seq_cut N x) by auto. eauto. }
    cbn [bind dget dset key_eqb vmk_eqb].
    destruct (diag_loop (fun ij => [fst ij; snd ij]) (afull [N; N; A; A] zero) (afull [N; N; A] zero) [N; N] A (list_prod (seq 0 N) (seq 0 N))) as (D2 & -> & S2 & W2 & R2); auto using wf_afull.
    { intros [x y] Hx. apply in_prod_iff in Hx as [Hx Hy]. apply in_seq in Hx, Hy. inb_solve; cbn; lia. }
    { intros q Hq. inbs. rewrite (prod_cut N x x0) by auto. do 3 eexists. split; [reflexivity|]. auto. }
    cbn [bind dget dset key_eqb vmk_eqb].
    match goal with |- exists d, Ok ?dd = _ /\ _ => set (d := dd) end.
    assert (Hdisp : forall i, i < N -> getd disp [i] = div (g_linear p) (w i)).
    { intros i Hi. unfold disp. rewrite getd_build by (unfold wa; inb_solve). f_equal. unfold wa. rewrite getd_build by inb_solve. auto. }
    assert (Sd : shape (diag zero ea) = [A]) by (unfold diag; rewrite Se; cbn; rewrite Nat.min_id; auto).
    assert (Rd : forall a, a < A -> aget (diag zero ea) [a] = aget ea [a; a]).
    { intros a Ha. unfold diag. rewrite Se. cbn [nth]. rewrite Nat.min_id, aget_abuild by inb_solve. symmetry. apply get_getd; auto. rewrite Se. inb_solve. }
    exists d. split; [auto|]. split.
    { split. { unfold d. cbn. repeat constructor; cbn; intuition discriminate. }
      intros k a Ha. unfold has, d in Ha. cbn [In] in Ha. repeat destruct Ha as [Ha|Ha]; inv Ha; auto using wf_afull; apply wf_abuild. }
    split. { intros k v Hk. unfold has, d in Hk. cbn [In] in Hk. repeat destruct Hk as [Hk|Hk]; inv Hk; eauto. }
    split. { intros m. unfold has, d. cbn [In]. destruct m; eexists; tauto. }
    split.
    { split. { split; eexists; (split; [unfold has, d; cbn [In]; eauto|constructor]). }
      intros m v s Hm Hs. unfold has, d in Hm. cbn [In] in Hm. repeat destruct Hm as [Hm|Hm]; inv Hm; inv Hs; eexists; (split; [reflexivity|]); rewrite ?Sd, ?S1, ?S2; reflexivity. }
    split; [|split; [|split]].
    - intros i Hi. apply reads_arr with wa. { unfold has, d. cbn [In]. auto. } unfold wa. rewrite aget_abuild by inb_solve. auto.
    - intros a Ha. apply reads_arr with (diag zero ea). { unfold has, d. cbn [In]. auto. } rewrite Rd, Re by auto. rewrite Nat.max_id, Nat.min_id. rewrite getd_build; [auto|]. inb_solve; lia.
    - intros i a Hi Ha. apply reads_arr with D1. { unfold has, d. cbn [In]. auto 10. } change [i; a] with ([i] ++ [a]). rewrite (R1 [i] a) by (auto; inb_solve). cbn [app]. rewrite Rg by auto. rewrite Nat.max_id, Nat.min_id, Hdisp by auto. auto.
    - intros m n idx Hm Hn Hi. destruct Hm as [<-|[<-|[<-|[]]]]; inv Hn.
      + apply reads_arr with D2. { unfold has, d. cbn [In]. auto 12. } cbn in Hi. inbs. change [x; x0; x1] with ([x; x0] ++ [x1]); rewrite (R2 [x; x0] x1) by (auto; inb_solve). apply aget_full. cbn. inb_solve.
      + eapply reads_arr; [|apply aget_full; exact Hi]. unfold has, d. cbn [In]. cbn; auto 12.
      + eapply reads_arr; [|apply aget_full; exact Hi]. unfold has, d. cbn [In]. cbn; auto 12.
  Qed.

  Theorem generated_negative (p : gen_params V) : (g_states p < 0 \/ g_modes p < 0)%Z -> gens p = Raise ValueError.
  Proof.
    intros H. unfold gens, generate_model, zeros_template, np_zeros.
    cbn -[Z.leb afull Z.to_nat].
    destruct (Z.leb_spec 0 (g_states p)); cbn -[Z.leb afull Z.to_nat]; [|reflexivity].
    destruct (Z.leb_spec 0 (g_modes p)); cbn -[Z.leb afull Z.to_nat]; [lia|reflexivity].
  Qed.
End Gen.
