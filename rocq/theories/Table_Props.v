(** C101: the functions that write the tables of scaling parameters, for use and for plots
    (vibronic/orthonormal/sequences.py:101-134, 195-210, 317-436, create.py:40-50) *)
From Coq Require Import Reals QArith Qabs Lqa.
From Verif Require Import Common Common_Proofs PyStr_Model PyStr_Proofs FileName_Model FileName_Proofs FileStruct_Model FileStruct_Proofs Results_Model Sequences_Model Sequences_Proofs Sequences_Props Sequences2_Props Table_Model Table_Proofs.
Local Open Scope string_scope.
Local Open Scope nat_scope.
Local Opaque linspace n_bins.

(** the two files of an order *)
Definition data_of (dir : string) (order : Z) : string := join dir ("sequence_" ++ dec order ++ ".data").
Definition pairs_of (dir : string) (order : Z) : string := join dir ("sequence_" ++ dec order ++ ".pairs").
Lemma seq_rel x y : rel ("sequence_" ++ x ++ y). Proof. simpl. discriminate. Qed.
(** C101: every order has two files of its own *)
Theorem C101_paths dir o o' :
  (data_of dir o = data_of dir o' -> o = o') /\ (pairs_of dir o = pairs_of dir o' -> o = o') /\ data_of dir o <> pairs_of dir o' /\
  path_to_sequence_file dir o = data_of dir o /\ path_to_x_pair_file dir o = pairs_of dir o.
Proof.
  assert (G : forall a b, join dir ("sequence_" ++ dec o ++ "." ++ a) = join dir ("sequence_" ++ dec o' ++ "." ++ b) -> o = o' /\ a = b).
  { intros a b E. apply join_rel_inj in E; [|apply seq_rel|apply seq_rel]. apply append_inj_l in E. apply (split_class is_int_char) in E; auto using dec_int_chars.
    destruct E as (E & _ & E2). apply dec_inj in E. auto. }
  split; [|split; [|split; [|split; reflexivity]]]; intros E.
  - apply (G "data" "data") in E. tauto.
  - apply (G "pairs" "pairs") in E. tauto.
  - apply (G "data" "pairs") in E. destruct E. discriminate.
Qed.
Print Assumptions C101_paths.
(** C101: the grid has 10000 points, equally spaced from 0 to b; the scans go to 100 *)
Theorem C101_grid b : length (linspace b) = Z.to_nat 10000 /\ linspace_dims = linspace 100 /\
  forall i x, nth_error (linspace b) i = Some x -> (Z.of_nat i < 10000)%Z /\ (x == b * (Z.of_nat i # 9999))%Q.
Proof.
  split; [apply linspace_length|]. split; [reflexivity|]. intros i x E. assert (L : i < n_bins) by (rewrite <- (linspace_length b); apply nth_error_Some; congruence).
  rewrite linspace_nth in E by exact L. injection E as <-. pose proof n_bins_value. split; [lia|reflexivity].
Qed.
Print Assumptions C101_grid.

(** ---- what is read back ---- *)
(** C101: with a table of two columns in the file the matrices are those of the table; without a file there is none *)
Theorem C101_read expm dir fs order t :
  (forall rows, fs (data_of dir order) = Some (map (fun r : Q * Q => [Some (fst r); Some (snd r)]) rows) ->
     create_from expm dir fs order t = create_orthonormal expm (fun o => if Z.eq_dec o order then Some rows else None) order t) /\
  (fs (data_of dir order) = None -> create_from expm dir fs order t = create_orthonormal expm (fun _ => None) order t).
Proof.
  split.
  - intros rows E. unfold create_from, create_orthonormal, load_sequence. change (path_to_sequence_file dir order) with (data_of dir order). rewrite E. fold (two rows). rewrite load_two. cbn [bind]. rewrite rows_two.
    destruct (Z.eq_dec order order); [|contradiction]. reflexivity.
  - intros E. unfold create_from, create_orthonormal, load_sequence. change (path_to_sequence_file dir order) with (data_of dir order). rewrite E. reflexivity.
Qed.
Print Assumptions C101_read.

(** ---- the table up to the first turn ---- *)
(** C101: without a positive order and without a turn there is an AssertionError, otherwise the table goes half way to the
    first turn; no other file is touched *)
Theorem C101_first dir fro fs order fs' o :
  generate_monotonic_sequence_to_first_turn_around dir fro fs order = (fs', o) ->
  (o = Raise AssertionError /\ fs' = fs /\
     ((order <= 0)%Z \/ forall i x y, nth_error (linspace 100) i = Some x -> nth_error (linspace 100) (S i) = Some y -> (fro order x <= fro order y)%Q)) \/
  (o = Ok tt /\ (0 < order)%Z /\ exists i x y, nth_error (linspace 100) i = Some x /\ nth_error (linspace 100) (S i) = Some y /\ (fro order y < fro order x)%Q /\
     (forall j a b, j < i -> nth_error (linspace 100) j = Some a -> nth_error (linspace 100) (S j) = Some b -> (fro order a <= fro order b)%Q) /\
     fs' (data_of dir order) = Some (map (fun z => [Some (fro order z); Some z]) (linspace (x / 2))) /\
     forall p, p <> data_of dir order -> fs' p = fs p).
Proof.
  unfold generate_monotonic_sequence_to_first_turn_around, build_SKSM_and_identity.
  destruct (Z.ltb_spec 0 order) as [P|P]; cbn [passert bind]; [|intros E; injection E as <- <-; left; split; [reflexivity|split; [reflexivity|left; lia]]].
  change linspace_dims with (linspace 100). set (grid := linspace 100).
  pose proof (C66_first (map (fun x => (x, fro order x)) grid)) as [F1 F2].
  destruct (find_first_turn_around_point (map (fun x => (x, fro order x)) grid)) as [[y x]|e] eqn:E.
  - destruct (proj1 (F1 y x) eq_refl) as (a & p & b & EQ & L & M). intros S.
    assert (NX : forall j, nth_error (map (fun x => (x, fro order x)) grid) j = match nth_error grid j with Some z => Some (z, fro order z) | None => None end) by (intros j; rewrite nth_error_map; reflexivity).
    assert (I1 : nth_error grid (length a) = Some x /\ y = fro order x).
    { specialize (NX (length a)). rewrite EQ, nth_error_app2, Nat.sub_diag in NX by lia. cbn [nth_error] in NX. destruct (nth_error grid (length a)) as [z|]; [|discriminate]. injection NX as <- ->. auto. }
    destruct I1 as [I1 ->]. assert (I2 : exists z, nth_error grid (Datatypes.S (length a)) = Some z /\ p = (z, fro order z)).
    { specialize (NX (Datatypes.S (length a))). rewrite EQ, nth_error_app2 in NX by lia. replace (Datatypes.S (length a) - length a) with 1 in NX by lia. match type of NX with ?l = _ => change l with (Some p) in NX end. destruct (nth_error grid (Datatypes.S (length a))) as [z|]; [|discriminate]. injection NX as ->. eauto. }
    destruct I2 as (z & I2 & ->). cbn [snd] in L. right. unfold save_sequence, check_minimum_length_of_sequence in S.
    assert (LEN : (minimum_length_of_sequence <=? length (two (map (fun x => (fro order x, x)) (linspace (x / 2))))) = true).
    { unfold two. rewrite !map_length, linspace_length. apply Nat.leb_le. pose proof n_bins_value. unfold minimum_length_of_sequence. lia. }
    rewrite LEN in S. cbn [passert] in S. injection S as <- <-. split; [reflexivity|]. split; [exact P|]. exists (length a), x, z. split; [exact I1|]. split; [exact I2|]. split; [exact L|]. split.
    + intros j u v Lj Eu Ev. apply (M j (u, fro order u) (v, fro order v)).
      * specialize (NX j). rewrite EQ, Eu in NX. rewrite nth_error_app1 in NX by lia. rewrite nth_error_app1 by lia. exact NX.
      * specialize (NX (Datatypes.S j)). rewrite EQ, Ev in NX. destruct (Nat.eq_dec (Datatypes.S j) (length a)) as [X|X].
        -- rewrite X in *. rewrite nth_error_app2, Nat.sub_diag in NX |- * by lia. exact NX.
        -- rewrite nth_error_app1 in NX |- * by lia. exact NX.
    + split; [change (path_to_sequence_file dir order) with (data_of dir order); rewrite put_same; unfold two; rewrite map_map; reflexivity|]. intros q N. apply put_other. exact N.
  - intros S. injection S as <- <-. left.
    assert (X : Raise e = @Raise (Q * Q) AssertionError).
    { clear - E. unfold find_first_turn_around_point in E. revert E. generalize (@None (Q * Q)). induction (map (fun x => (x, fro order x)) grid) as [|[u v] l IH]; intros old E; cbn in E; [congruence|].
      destruct old as [[od ox]|]; [destruct (Qlt_bool v od); [discriminate|]|]; eauto. }
    rewrite X in E, F2. injection X as ->. split; [reflexivity|]. split; [reflexivity|]. right. intros i u v Eu Ev. apply (proj1 F2 eq_refl i (u, fro order u) (v, fro order v)); rewrite nth_error_map; [rewrite Eu|rewrite Ev]; reflexivity.
Qed.
Print Assumptions C101_first.

(** ---- the tables for plots ---- *)
(** C101: the first of the three functions for plots always fails: it forgets an argument *)
Theorem C101_plot_full_refuted fs order :
  generate_full_monotonic_sequence_for_plotting fs order = (fs, Raise (if Z_lt_dec 0 order then TypeError else AssertionError)).
Proof.
  unfold generate_full_monotonic_sequence_for_plotting, build_SKSM_and_identity. destruct (Z.ltb_spec 0 order) as [P|P]; destruct (Z_lt_dec 0 order) as [Q|Q]; try lia; reflexivity.
Qed.
Print Assumptions C101_plot_full_refuted.

Lemma three_nth fro order grid : forall tps, length grid <= length tps -> exists rows, three fro order grid tps = Ok rows /\ length rows = length grid /\
  forall i x, nth_error grid i = Some x -> exists c, nth_error tps i = Some c /\ nth_error rows i = Some [Some (fro order x); c; Some x].
Proof.
  induction grid as [|x grid IH]; intros tps L; [exists []; cbn; split; [reflexivity|split; [reflexivity|]]; intros [|i]; discriminate|].
  destruct tps as [|t tps]; [cbn in L; lia|]. cbn in L. destruct (IH tps ltac:(lia)) as (rows & E & EL & N). exists ([Some (fro order x); t; Some x] :: rows). cbn [three]. rewrite E. split; [reflexivity|]. split; [cbn; lia|].
  intros [|i] z Ez; [injection Ez as <-; exists t; auto|]. cbn in *. apply N. exact Ez.
Qed.
(** the places of the turning points on the grid *)
Definition placed (fro : Z -> Q -> Q) (order : Z) (idx : list nat) : Prop :=
  Forall2 (fun p i => exists x, nth_error (linspace 100) i = Some x /\ (px p == x)%Q) (list_of_turning_points (map (fun x => (x, fro order x)) (linspace 100))) idx.
Lemma placed_exists fro order : exists idx, placed fro order idx.
Proof.
  unfold placed. set (scan := map (fun x => (x, fro order x)) (linspace 100)).
  assert (A : forall p, In p (list_of_turning_points scan) -> exists i x, nth_error (linspace 100) i = Some x /\ (px p == x)%Q).
  { intros p I. destruct (turning_in scan p I) as [E|(y & J)].
    - exists 0, (100 * (Z.of_nat 0 # 9999))%Q. split; [apply linspace_nth; pose proof n_bins_value; lia|rewrite E; reflexivity].
    - unfold scan in J. apply in_map_iff in J. destruct J as (x & E & J). injection E as <- <-. apply In_nth_error in J. destruct J as (i & J). exists i, x. split; [exact J|reflexivity]. }
  induction (list_of_turning_points scan) as [|p ps IH]; [exists []; constructor|]. destruct IH as (idx & F); [intros; apply A; right; auto|]. destruct (A p (or_introl eq_refl)) as (i & X). exists (i :: idx). constructor; auto.
Qed.
(** C101: the table with the turning points: the norm and x are those of the grid, but turning point number k, found at
    place i of the grid, is shown in row i + k; the first one that lies at the place of its predecessor, and all after it,
    are not shown *)
Theorem C101_turning dir fro fs order idx : (0 < order)%Z -> placed fro order idx ->
  exists rows, generate_turning_point_sequence_for_plotting dir fro fs order = (put fs (data_of dir order) rows, Ok tt) /\
    length rows = Z.to_nat 10000 /\
    forall i x, nth_error (linspace 100) i = Some x -> exists c, nth_error rows i = Some [Some (fro order x); c; Some x] /\
      forall y, c = Some y <-> exists k p a, nth_error (list_of_turning_points (map (fun x => (x, fro order x)) (linspace 100))) k = Some p /\ nth_error idx k = Some a /\
        (forall j u v, j < k -> nth_error idx j = Some u -> nth_error idx (S j) = Some v -> u < v) /\ i = a + k /\ y = py p.
Proof.
  intros P F. unfold generate_turning_point_sequence_for_plotting, build_SKSM_and_identity. rewrite (proj2 (Z.ltb_lt 0 order) P). cbn [passert bind]. cbn zeta.
  change linspace_dims with (linspace 100). set (grid := linspace 100) in *. set (ps := list_of_turning_points (map (fun x => (x, fro order x)) grid)) in *.
  destruct (three_nth fro order grid (turning_points grid ps) (turning_length grid ps)) as (rows & E & L & N). exists rows. rewrite E.
  assert (LB : length grid = n_bins) by apply linspace_length.
  split; [|split].
  - unfold save_sequence, check_minimum_length_of_sequence.
    assert (LEN : (minimum_length_of_sequence <=? length rows) = true) by (rewrite L, LB; apply Nat.leb_le; pose proof n_bins_value; unfold minimum_length_of_sequence; lia).
    rewrite LEN. reflexivity.
  - rewrite L, LB. reflexivity.
  - intros i x Ex. destruct (N i x Ex) as (c & Ec & Er). exists c. split; [exact Er|]. intros y.
    pose proof (turning_spec grid dims_far (length grid) 0 ps idx ltac:(lia) F i y) as T. change (skipn 0 grid) with grid in T. rewrite Ec in T. split.
    + intros ->. destruct (proj1 T eq_refl) as (k & p & a & Ep & (R1 & R2 & R3) & Ei & ->). exists k, p, a. rewrite Nat.add_0_r in Ei. auto 8.
    + intros (k & p & a & Ep & R1 & R3 & Ei & ->). assert (X : Some c = Some (Some (py p))); [|congruence]. apply T. exists k, p, a. split; [exact Ep|]. split; [split; [exact R1|split; [intros; lia|exact R3]]|]. split; [lia|reflexivity].
Qed.
Print Assumptions C101_turning.
(** C101: it is written over the table itself; afterwards no matrix other than the identity can be made *)
Theorem C101_overwritten_refuted dir fro expm fs fs' order t : (0 < order)%Z ->
  generate_turning_point_sequence_for_plotting dir fro fs order = (fs', Ok tt) -> (0 < t <= 1)%Q ->
  create_from expm dir fs' order t = Raise ValueError.
Proof.
  intros P G T. destruct (placed_exists fro order) as (idx & F). destruct (C101_turning dir fro fs order idx P F) as (rows & E & L & N). rewrite E in G. injection G as <-.
  unfold create_from, build_SKSM_and_identity. rewrite (proj2 (Z.ltb_lt 0 order) P). rewrite (proj2 (Qle_bool_iff 0 t)) by lra. rewrite (proj2 (Qle_bool_iff t 1)) by lra. cbn [passert bind andb].
  destruct (Qeq_bool t 0) eqn:Z0; [apply Qeq_bool_iff in Z0; lra|]. unfold load_sequence. change (path_to_sequence_file dir order) with (data_of dir order). rewrite put_same.
  assert (NR : exists i x c, nth_error (linspace 100) i = Some x /\ nth_error rows i = Some [Some (fro order x); c; Some x] /\ c = None).
  { pose proof n_bins_value as NB. destruct (N 0 _ (linspace_nth 100 0 ltac:(lia))) as (c0 & E0 & C0). destruct (N 1 _ (linspace_nth 100 1 ltac:(lia))) as (c1 & E1 & C1).
    destruct c0 as [y0|]; [|exists 0; do 2 eexists; split; [apply linspace_nth; lia|split; [exact E0|reflexivity]]].
    destruct c1 as [y1|]; [|exists 1; do 2 eexists; split; [apply linspace_nth; lia|split; [exact E1|reflexivity]]].
    exfalso. destruct (proj1 (C0 y0) eq_refl) as (k & p & a & _ & Ea & I1 & Z1 & _). destruct (proj1 (C1 y1) eq_refl) as (k' & p' & a' & _ & Ea' & I2 & Z2 & _).
    assert (k = 0 /\ a = 0) as [-> ->] by lia. destruct k' as [|k']; [rewrite Ea in Ea'; injection Ea' as <-; lia|]. assert (k' = 0 /\ a' = 0) as [-> ->] by lia.
    specialize (I2 0 0 0 ltac:(lia) Ea Ea'). lia. }
  destruct NR as (i & x & c & Ex & Er & ->). apply nth_error_In in Er.
  rewrite (map_res_raise numbers rows _ ValueError Er); [reflexivity|reflexivity|].
  intros row e _ H. clear - H. revert H. induction row as [|[z|] row IH]; cbn; intros H; [discriminate| |congruence]. destruct (numbers row); cbn in H; [discriminate|auto].
Qed.
Print Assumptions C101_overwritten_refuted.
(** C101: so is the table of the three norms; afterwards the matrices are made with the one norm as distance and the
    frobenius norm as scaling parameter *)
Theorem C101_norms_refuted dir one fro inf fs order : (0 < order)%Z ->
  exists fs', generate_sequences_for_plotting dir one fro inf fs order = (fs', Ok tt) /\
    fs' (data_of dir order) = Some (map (fun x => [Some (one order x); Some (fro order x); Some (inf order x); Some x]) (linspace 100)) /\
    (forall p, p <> data_of dir order -> fs' p = fs p) /\
    forall expm t, create_from expm dir fs' order t = create_orthonormal expm (fun _ => Some (map (fun x => (one order x, fro order x)) (linspace 100))) order t.
Proof.
  intros P. unfold generate_sequences_for_plotting, build_SKSM_and_identity. rewrite (proj2 (Z.ltb_lt 0 order) P). cbn [passert bind]. change linspace_dims with (linspace 100).
  unfold save_sequence, check_minimum_length_of_sequence. rewrite map_length, linspace_length.
  assert (LEN : (minimum_length_of_sequence <=? n_bins) = true) by (apply Nat.leb_le; pose proof n_bins_value; unfold minimum_length_of_sequence; lia). rewrite LEN. cbn [passert].
  eexists. split; [reflexivity|]. change (path_to_sequence_file dir order) with (data_of dir order). split; [apply put_same|]. split; [intros p N; apply put_other; exact N|].
  intros expm t. unfold create_from, create_orthonormal, load_sequence. change (path_to_sequence_file dir order) with (data_of dir order). rewrite put_same.
  assert (E : forall l, map_res numbers (map (fun x => [Some (one order x); Some (fro order x); Some (inf order x); Some x]) l) = Ok (map (fun x => [one order x; fro order x; inf order x; x]) l)).
  { induction l as [|x l IH]; [reflexivity|]. cbn [map map_res numbers bind]. rewrite IH. reflexivity. }
  assert (E2 : forall l, map_res row_pair (map (fun x => [one order x; fro order x; inf order x; x]) l) = Ok (map (fun x => (one order x, fro order x)) l)).
  { induction l as [|x l IH]; [reflexivity|]. cbn [map map_res]. cbn [row_pair item nth_error bind]. rewrite IH. reflexivity. }
  rewrite E. cbn [bind]. rewrite E2. reflexivity.
Qed.
Print Assumptions C101_norms_refuted.

(** ---- all tables ---- *)
(** the two files of an order are those of the table of this order *)
Definition written (dir : string) (fro : Z -> Q -> Q) (best : Z -> Q) (fs : fsys table) (order : Z) : Prop :=
  exists pairs rows, generate_full_monotonic_sequence (fro order) (best order) (linspace 100) linspace (fun b => (b / 9999)%Q) (mkSaved None None) = (mkSaved (Some pairs) (Some rows), Ok tt) /\
    fs (pairs_of dir order) = Some (map (fun r => [Some (fst r); Some (snd r)]) pairs) /\ fs (data_of dir order) = Some (map (fun r => [Some (fst r); Some (snd r)]) rows).
Lemma write_ok dir fro best fs order fs' o : (0 < order)%Z -> write_full_sequence dir fro best fs order = (fs', o) ->
  (forall p, p <> data_of dir order -> p <> pairs_of dir order -> fs' p = fs p) /\
  (o = Ok tt -> written dir fro best fs' order) /\ (forall e, o = Raise e -> fs' (data_of dir order) = fs (data_of dir order)).
Proof.
  intros P W. unfold write_full_sequence, build_SKSM_and_identity in W. rewrite (proj2 (Z.ltb_lt 0 order) P) in W. cbn [passert bind] in W. change linspace_dims with (linspace 100) in W.
  destruct (generate_full_monotonic_sequence _ _ _ _ _ _) as [[pf df] r] eqn:G. cbn [pairs_file data_file] in W. injection W as <- <-.
  change (path_to_sequence_file dir order) with (data_of dir order). change (path_to_x_pair_file dir order) with (pairs_of dir order).
  assert (NE : data_of dir order <> pairs_of dir order) by apply C101_paths.
  split; [|split].
  - intros p N1 N2. destruct df, pf; rewrite ?put_other; auto.
  - intros ->. assert (X : exists ps rs, pf = Some ps /\ df = Some rs).
    { unfold generate_full_monotonic_sequence in G. destruct (generate_x_pairs _) as [ps|e]; [|discriminate]. destruct (py_index _ _) as [m|e]; [|discriminate]. cbn [bind] in G.
      destruct (best_x _ _ _ _) as [b|e]; [|discriminate]. cbn [bind] in G. destruct (check_minimum_length_of_sequence _) as [u|e]; [|discriminate]. cbn [bind] in G. injection G as <- <-. eauto. }
    destruct X as (ps & rs & -> & ->). exists ps, rs. split; [exact G|]. split; [rewrite put_other by congruence; apply put_same|apply put_same].
  - intros e ->. assert (df = None) as ->.
    { unfold generate_full_monotonic_sequence in G. destruct (generate_x_pairs _) as [ps|e']; [|injection G as <- <- _; reflexivity].
      match type of G with match ?x with _ => _ end = _ => destruct x as [s|e'] end; [discriminate|]. injection G as _ <- _. reflexivity. }
    destruct pf; [rewrite put_other by exact NE; reflexivity|reflexivity].
Qed.
(** C101: main writes the tables of the orders 2 to 10 in turn, up to the first that fails, and no other file *)
Theorem C101_main dir fro best fs fs' o :
  main dir fro best fs = (fs', o) ->
  exists n, (2 <= n <= 11)%Z /\ (o = Ok tt <-> n = 11%Z) /\
    (forall order, (2 <= order < n)%Z -> written dir fro best fs' order) /\
    (forall p, (forall order, (2 <= order <= n)%Z -> (order <= 10)%Z -> p <> data_of dir order /\ p <> pairs_of dir order) -> fs' p = fs p) /\
    fs' (data_of dir n) = fs (data_of dir n).
Proof.
  unfold main.
  assert (G : forall len lo fs, (0 < lo)%Z -> main_orders dir fro best fs (map (fun i => (lo + Z.of_nat i)%Z) (seq 0 len)) = (fs', o) ->
    exists n, (lo <= n <= lo + Z.of_nat len)%Z /\ (o = Ok tt <-> n = (lo + Z.of_nat len)%Z) /\
      (forall order, (lo <= order < n)%Z -> written dir fro best fs' order) /\
      (forall p, (forall order, (lo <= order <= n)%Z -> (order < lo + Z.of_nat len)%Z -> p <> data_of dir order /\ p <> pairs_of dir order) -> fs' p = fs p) /\
      fs' (data_of dir n) = fs (data_of dir n)).
  { clear fs. induction len as [|len IH]; intros lo fs P M.
    - cbn in M. injection M as <- <-. exists lo. split; [lia|]. split; [split; [lia|reflexivity]|]. split; [lia|]. auto.
    - cbn [seq map] in M. rewrite <- seq_shift, map_map in M. replace (lo + Z.of_nat 0)%Z with lo in M by lia.
      rewrite (map_ext _ (fun i => (lo + 1 + Z.of_nat i)%Z)) in M by (intros; lia). cbn [main_orders] in M.
      destruct (write_full_sequence dir fro best fs lo) as [fs1 [[]|e]] eqn:W; destruct (write_ok _ _ _ _ _ _ _ P W) as (W1 & W2 & W3).
      + destruct (IH (lo + 1)%Z fs1 ltac:(lia) M) as (n & B & O & D & F & L). exists n. split; [lia|]. split; [rewrite O; split; lia|].
        assert (KEEP : fs' (data_of dir lo) = fs1 (data_of dir lo) /\ fs' (pairs_of dir lo) = fs1 (pairs_of dir lo)).
        { split; apply F; intros order B1 B2; pose proof (C101_paths dir lo order) as (X1 & X2 & X3 & _); pose proof (C101_paths dir order lo) as (_ & _ & X4 & _); split; intros E; auto; try (apply X1 in E; lia); try (apply X2 in E; lia); congruence. }
        split; [|split].
        * intros order R. destruct (Z.eq_dec order lo) as [->|N]; [|apply D; lia]. destruct (W2 eq_refl) as (ps & rs & G1 & G2 & G3). exists ps, rs. destruct KEEP as [-> ->]. auto.
        * intros p N. rewrite F by (intros; apply N; lia). apply W1; apply (N lo); lia.
        * rewrite L. destruct (Z.eq_dec n lo) as [->|NE]; [lia|]. apply W1; intros E; [apply C101_paths in E; lia|revert E; apply C101_paths].
      + injection M as <- <-. exists lo. split; [lia|]. split; [split; [discriminate|lia]|]. split; [lia|]. split; [|eapply W3; reflexivity].
        intros p N. apply W1; apply (N lo); lia. }
  intros M. destruct (G 9 2%Z fs ltac:(lia) M) as (n & B & O & D & F & L). exists n. change (2 + Z.of_nat 9)%Z with 11%Z in *. split; [lia|]. split; [exact O|]. split; [exact D|]. split; [|exact L].
  intros p N. apply F. intros; apply N; lia.
Qed.
Print Assumptions C101_main.

(** ---- the scripts ---- *)
(** C101: called with the words of a command line create.main always fails; with a whole number and a float it makes the matrix
    and throws it away *)
Theorem C101_script expm dir fs :
  (forall words, create_main expm dir fs (map AStr words) = Raise AssertionError) /\
  (forall a n t, create_main expm dir fs [a; AInt n; AFloat t] = match create_from expm dir fs n t with Ok _ => Ok tt | Raise e => Raise e end) /\
  (forall args, (forall a n t, args <> [a; AInt n; AFloat t]) -> create_main expm dir fs args = Raise AssertionError).
Proof.
  split; [|split; [reflexivity|]].
  2: { intros args N. destruct args as [|a [|b [|c [|d args]]]]; try reflexivity. destruct b; try reflexivity. destruct c; try reflexivity. exfalso. exact (N _ _ _ eq_refl). }
  intros words. unfold create_main. rewrite map_length. destruct words as [|a [|b [|c [|d words]]]]; reflexivity.
Qed.
Print Assumptions C101_script.
(** C101: the check shows the pairs for five tuning parameters *)
Theorem C101_check dir fs name a argv order rows : fs (data_of dir order) = Some (map (fun r : Q * Q => [Some (fst r); Some (snd r)]) rows) -> py_int_str a = Ok order -> (0 < order)%Z ->
  debugging_matrix_checking_function dir fs (name :: a :: argv) =
    (do p1 <- select_pair rows 0; do p2 <- select_pair rows (1 # 4); do p3 <- select_pair rows (1 # 2); do p4 <- select_pair rows (3 # 4); do p5 <- select_pair rows 1;
     Ok [(0, p1); (1 # 4, p2); (1 # 2, p3); (3 # 4, p4); (1, p5)]%Q).
Proof.
  intros F A P. unfold debugging_matrix_checking_function, load_sequence. cbn [item nth_error bind]. rewrite A. cbn [bind]. change (path_to_sequence_file dir order) with (data_of dir order). rewrite F. fold (two rows). rewrite load_two.
  unfold build_SKSM_and_identity. rewrite (proj2 (Z.ltb_lt 0 order) P). cbn [passert bind]. rewrite rows_two. cbn [bind map_res].
  repeat match goal with |- context [select_pair rows ?t] => destruct (select_pair rows t) as [?|?]; cbn [bind]; [|reflexivity] end. reflexivity.
Qed.
Print Assumptions C101_check.
(** ---- examples ---- *)
(** the examples are worked out by reasoning: the grid is too long to compute with *)
Lemma at_exists : {f : Z -> nat | forall z, (0 <= z)%Z -> Z.of_nat (f z) = z}. Proof. exists Z.to_nat. apply Z2Nat.id. Qed.
Definition at_ : Z -> nat := proj1_sig at_exists.
Lemma at_val z : (0 <= z)%Z -> Z.of_nat (at_ z) = z. Proof. apply (proj2_sig at_exists). Qed.
Ltac atl :=
  repeat match goal with
         | |- context [at_ ?z] => let n := fresh "n" in let e := fresh "e" in pose proof (at_val z ltac:(lia)) as e; set (n := at_ z) in *; clearbody n
         | H : context [at_ ?z] |- _ => let n := fresh "n" in let e := fresh "e" in pose proof (at_val z ltac:(lia)) as e; set (n := at_ z) in *; clearbody n
         end; lia.
Definition point (i : nat) : Q := (100 * (Z.of_nat i # 9999))%Q.
Ltac qlia := unfold point in *; unfold Qle, Qlt, inject_Z in *; unfold Qmult in *; cbn [Qnum Qden] in *; rewrite ?Pos2Z.inj_mul in *; lia.
Lemma fold_rise (d : nat -> Q) l : forall n a, (forall i, a < i <= a + n -> (d (i - 1)%nat <= d i)%Q) ->
  fold_left tstep (map (fun i => (point i, d i)) (seq (S a) n)) (mkT None (d a) (point a) l) = mkT None (d (a + n)) (point (a + n)) l.
Proof.
  induction n as [|n IH]; intros a R; [rewrite Nat.add_0_r; reflexivity|]. cbn [seq map fold_left tstep turn]. specialize (R (S a)) as R1. cbn [Nat.sub] in R1. rewrite Nat.sub_0_r in R1.
  assert (Qlt_bool (d (S a)) (d a) = false) as E by (apply Qlt_bool_false, R1; lia). cbn [old_distance]. rewrite E. cbn [xy]. rewrite IH by (intros i B; apply R; lia). rewrite Nat.add_succ_r. reflexivity.
Qed.
Lemma fold_below (d : nat -> Q) l m : forall n a y x, (forall i, a <= i < a + n -> (d i < m)%Q) -> exists y' x',
  fold_left tstep (map (fun i => (point i, d i)) (seq a n)) (mkT (Some m) y x l) = mkT (Some m) y' x' l.
Proof.
  induction n as [|n IH]; intros a y x R; [exists y, x; reflexivity|]. cbn [seq map fold_left tstep turn].
  assert (Qle_bool m (d a) = false) as E by (destruct (Qle_bool m (d a)) eqn:E; [apply Qle_bool_iff in E; specialize (R a ltac:(lia)); lra|reflexivity]). rewrite E. apply IH. intros i B. apply R. lia.
Qed.
(** a norm that rises to 30, is 0 up to 60, 40 up to 90, and then 0 *)
Definition norm_ex (x : Q) : Q := if Qle_bool x 30 then x else if Qle_bool x 60 then 0%Q else if Qle_bool x 90 then 40%Q else 0%Q.
Definition fro_ex (o : Z) : Q -> Q := norm_ex.
Definition d_ex (i : nat) : Q := norm_ex (point i).
Lemma point_le i b : (b * 9999 < Z.of_nat i * 100)%Z -> Qle_bool (point i) (b # 1) = false.
Proof. intros H. destruct (Qle_bool (point i) (b # 1)) eqn:E; [|reflexivity]. apply Qle_bool_iff in E. qlia. Qed.
Lemma point_ge i b : (Z.of_nat i * 100 <= b * 9999)%Z -> Qle_bool (point i) (b # 1) = true.
Proof. intros H. apply Qle_bool_iff. qlia. Qed.
Lemma d_low i : (Z.of_nat i <= 2999)%Z -> d_ex i = point i.
Proof. intros H. unfold d_ex, norm_ex. rewrite (point_ge i 30) by lia. reflexivity. Qed.
Lemma d_zero i : (3000 <= Z.of_nat i <= 5999)%Z -> d_ex i = 0%Q.
Proof. intros H. unfold d_ex, norm_ex. rewrite (point_le i 30), (point_ge i 60) by lia. reflexivity. Qed.
Lemma d_high i : (6000 <= Z.of_nat i <= 8999)%Z -> d_ex i = 40%Q.
Proof. intros H. unfold d_ex, norm_ex. rewrite (point_le i 30), (point_le i 60), (point_ge i 90) by lia. reflexivity. Qed.
Lemma d_end i : (9000 <= Z.of_nat i)%Z -> d_ex i = 0%Q.
Proof. intros H. unfold d_ex, norm_ex. rewrite (point_le i 30), (point_le i 60), (point_le i 90) by lia. reflexivity. Qed.
Lemma point_mono i j : (Z.of_nat i <= Z.of_nat j)%Z -> (point i <= point j)%Q.
Proof. intros H. qlia. Qed.
Definition points_ex : list pair := [mkPair (point (at_ 2999)) (point (at_ 2999)); mkPair (point (at_ 6000)) 40; mkPair (point (at_ 8999)) 40].
Lemma linspace_100 : linspace 100 = map point (seq 0 n_bins). Proof. reflexivity. Qed.
Lemma turning_ex : list_of_turning_points (map (fun x => (x, norm_ex x)) (linspace 100)) = points_ex.
Proof.
  rewrite linspace_100, map_map. change (fun x : nat => (point x, norm_ex (point x))) with (fun i => (point i, d_ex i)). unfold list_of_turning_points.
  assert (SP : seq 0 n_bins = 0 :: seq 1 (at_ 2999) ++ (at_ 3000 :: seq (S (at_ 3000)) (at_ 2999)) ++ (at_ 6000 :: seq (S (at_ 6000)) (at_ 2999)) ++ (at_ 9000 :: seq (S (at_ 9000)) (at_ 999))).
  { pose proof n_bins_value as NB. assert (SC : forall a n m, n = S m -> seq a n = a :: seq (S a) m) by (intros a n m ->; reflexivity).
    replace n_bins with (1 + (at_ 2999 + (at_ 3000 + (at_ 3000 + at_ 1000)))) by atl. rewrite !seq_app.
    replace (0 + 1 + at_ 2999) with (at_ 3000) by atl. replace (at_ 3000 + at_ 3000) with (at_ 6000) by atl. replace (at_ 6000 + at_ 3000) with (at_ 9000) by atl.
    rewrite (SC (at_ 3000) (at_ 3000) (at_ 2999)), (SC (at_ 6000) (at_ 3000) (at_ 2999)), (SC (at_ 9000) (at_ 1000) (at_ 999)) by atl. reflexivity. }
  rewrite SP. clear SP. cbn [map fold_left]. rewrite !map_app, !fold_left_app.
  assert (E0 : tstep (mkT None 0 0 []) (point 0, d_ex 0) = mkT None (d_ex 0) (point 0) []) by reflexivity. rewrite E0.
  rewrite (fold_rise d_ex [] (at_ 2999) 0).
  2:{ intros i B. rewrite !d_low by atl. apply point_mono. lia. }
  cbn [Nat.add]. rewrite (d_low (at_ 2999)) by atl. cbn [map fold_left].
  assert (E1 : tstep (mkT None (point (at_ 2999)) (point (at_ 2999)) []) (point (at_ 3000), d_ex (at_ 3000)) = mkT (Some (point (at_ 2999))) 0 (point (at_ 3000)) [mkPair (point (at_ 2999)) (point (at_ 2999))]).
  { rewrite d_zero by atl. cbn [tstep turn old_distance old_x xy]. assert (Qlt_bool 0 (point (at_ 2999)) = true) as -> by (apply Qlt_bool_iff; unfold Qlt, point; rewrite at_val by lia; reflexivity). reflexivity. }
  rewrite E1. destruct (fold_below d_ex [mkPair (point (at_ 2999)) (point (at_ 2999))] (point (at_ 2999)) (at_ 2999) (S (at_ 3000)) 0 (point (at_ 3000))) as (y1 & x1 & ->).
  { intros i B. rewrite d_zero by atl. unfold Qlt, point. rewrite at_val by lia. reflexivity. }
  cbn [map fold_left].
  assert (E2 : forall l, tstep (mkT (Some (point (at_ 2999))) y1 x1 l) (point (at_ 6000), d_ex (at_ 6000)) = mkT None (d_ex (at_ 6000)) (point (at_ 6000)) (l ++ [mkPair (point (at_ 6000)) 40])%list).
  { intros l. rewrite d_high by atl. cbn [tstep turn xy]. assert (Qle_bool (point (at_ 2999)) 40 = true) as -> by (apply (point_ge (at_ 2999) 40); atl). reflexivity. }
  rewrite E2.
  pose proof (fold_rise d_ex ([mkPair (point (at_ 2999)) (point (at_ 2999))] ++ [mkPair (point (at_ 6000)) 40])%list (at_ 2999) (at_ 6000)) as FR.
  set (seg := map _ (seq (S (at_ 6000)) (at_ 2999))) in *. rewrite FR. clear FR.
  2:{ intros i B. rewrite !d_high by atl. lra. }
  replace (at_ 6000 + at_ 2999) with (at_ 8999) by atl. rewrite (d_high (at_ 8999)) by atl. cbn [map fold_left].
  rewrite (d_end (at_ 9000)) by atl. cbn [tstep turn old_distance old_x xy]. assert (Qlt_bool 0 40 = true) as -> by reflexivity.
  destruct (fold_below d_ex (([mkPair (point (at_ 2999)) (point (at_ 2999))] ++ [mkPair (point (at_ 6000)) 40]) ++ [mkPair (point (at_ 8999)) 40])%list 40 (at_ 999) (S (at_ 9000)) 0 (point (at_ 9000))) as (y2 & x2 & ->); [|reflexivity].
  intros i B. rewrite d_end by atl. reflexivity.
Qed.
(** three turning points, at the places 2999, 6000 and 8999 of the grid; they are shown in the rows 2999, 6001 and 9001 *)
Example C101_example_turning : placed fro_ex 2 [at_ 2999; at_ 6000; at_ 8999] /\
  forall dir fs, exists rows, generate_turning_point_sequence_for_plotting dir fro_ex fs 2 = (put fs (data_of dir 2) rows, Ok tt) /\
    exists a c x, nth_error rows (at_ 6001) = Some [a; c; x] /\ c = Some 40%Q /\ x = Some (point (at_ 6001)).
Proof.
  assert (PL : placed fro_ex 2 [at_ 2999; at_ 6000; at_ 8999]).
  { unfold placed, fro_ex. rewrite turning_ex. pose proof n_bins_value. repeat constructor; (eexists; split; [apply linspace_nth; atl|reflexivity]). }
  split; [exact PL|]. intros dir fs. destruct (C101_turning dir fro_ex fs 2 _ ltac:(lia) PL) as (rows & E & L & N). exists rows. split; [exact E|].
  pose proof n_bins_value. destruct (N (at_ 6001) _ (linspace_nth 100 (at_ 6001) ltac:(atl))) as (c & NR & C). do 3 eexists. split; [exact NR|]. split; [|reflexivity].
  apply C. exists 1, (mkPair (point (at_ 6000)) 40), (at_ 6000). unfold fro_ex. rewrite turning_ex. split; [reflexivity|]. split; [reflexivity|]. split; [|split; [atl|reflexivity]].
  intros [|j] u v B U V; [|lia]. injection U as <-. injection V as <-. atl.
Qed.
Lemma best_first dist best_y step l1 x l2 : (forall y, In y l1 -> dist y <= best_y)%Q -> (best_y < dist x)%Q -> (dist (x - step)%Q <= best_y)%Q ->
  best_x dist best_y step (l1 ++ x :: l2) = Ok (x - step)%Q.
Proof.
  induction l1 as [|z l1 IH]; intros A B C; cbn [app best_x].
  - rewrite (proj2 (Qlt_bool_iff _ _) B), (proj2 (Qle_bool_iff _ _) C). reflexivity.
  - rewrite (proj2 (Qlt_bool_false _ _) (A z (or_introl eq_refl))). apply IH; auto. intros y I. apply A. right. exact I.
Qed.
(** this norm gives a table for every order; one that only rises gives none *)
Definition best_ex (o : Z) : Q := 20.
Lemma full_ex : exists s, generate_full_monotonic_sequence norm_ex 20 (linspace 100) linspace (fun b => (b / 9999)%Q) (mkSaved None None) = (s, Ok tt).
Proof.
  unfold generate_full_monotonic_sequence. rewrite turning_ex. cbn zeta.
  set (top := point (at_ 8999)). assert (T0 : (top == 899900 # 9999)%Q) by (unfold top, point; rewrite at_val by lia; reflexivity).
  assert (BX : exists b, best_x norm_ex 20 (top / 9999)%Q (linspace top) = Ok b /\ (0 <= b <= 20)%Q).
  { pose proof n_bins_value as NB. set (p := at_ 2223).
    assert (V : forall i, (Z.of_nat i <= 2223)%Z -> (0 <= top * (Z.of_nat i # 9999) <= 30)%Q).
    { intros i B. rewrite T0. split; qlia. }
    exists (top * (Z.of_nat p # 9999) - top / 9999)%Q. split.
    - assert (SP : seq 0 n_bins = (seq 0 p ++ p :: seq (S p) (n_bins - p - 1))%list).
      { replace n_bins with (p + (1 + (n_bins - p - 1))) at 1 by (unfold p; atl). rewrite !seq_app. cbn [Nat.add]. rewrite Nat.add_1_r. reflexivity. }
      assert (EL : linspace top = (map (fun i => (top * (Z.of_nat i # 9999))%Q) (seq 0 p) ++ (top * (Z.of_nat p # 9999))%Q :: map (fun i => (top * (Z.of_nat i # 9999))%Q) (seq (S p) (n_bins - p - 1)))%list).
      { change (linspace top) with (map (fun i => (top * (Z.of_nat i # 9999))%Q) (seq 0 n_bins)). rewrite SP, map_app. reflexivity. }
      assert (NE : forall x, (x <= 30)%Q -> norm_ex x = x) by (intros x B; unfold norm_ex; rewrite (proj2 (Qle_bool_iff x 30) B); reflexivity).
      rewrite EL. apply best_first.
      + intros y I. apply in_map_iff in I. destruct I as (i & <- & I). apply in_seq in I. unfold p in I. pose proof (at_val 2223 ltac:(lia)). rewrite NE by (apply V; atl). rewrite T0. qlia.
      + rewrite NE by (apply V; unfold p; atl). rewrite T0. unfold p. rewrite at_val by lia. reflexivity.
      + assert (B : (top * (Z.of_nat p # 9999) - top / 9999 <= 20)%Q) by (rewrite T0; unfold p; rewrite at_val by lia; unfold Qle; cbn; lia). rewrite NE by lra. exact B.
    - rewrite T0. unfold p. rewrite at_val by lia. split; unfold Qle; cbn; lia. }
  destruct BX as (b & BX & BB). change (generate_x_pairs points_ex) with (Ok [(0, point (at_ 2999)); (point (at_ 6000), top)]%Q). cbv iota beta.
  change (py_index points_ex (-1)) with (Ok (mkPair top 40)). cbn [bind px]. rewrite BX. cbn [bind].
  set (sq := prune _ _). assert (LS : 50 <= length sq).
  { unfold sq, prune. cbn [flat_map]. rewrite app_length.
    assert (FI : forall l, (forall p : Q * Q, In p l -> (0 <= snd p <= b)%Q) -> length (filter (fun p => Qle_bool 0 (snd p) && Qle_bool (snd p) (point (at_ 2999))) l) = length l).
    { induction l as [|p l IH]; intros A; [reflexivity|]. cbn [filter]. destruct (A p (or_introl eq_refl)) as [A1 A2]. rewrite (proj2 (Qle_bool_iff _ _) A1).
      assert (B1 : (snd p <= point (at_ 2999))%Q). { apply (Qle_trans _ b); [exact A2|]. apply (Qle_trans _ 20); [apply BB|]. unfold Qle, point. rewrite at_val by lia. cbn. lia. }
      rewrite (proj2 (Qle_bool_iff _ _) B1). cbn [andb length]. rewrite IH; [reflexivity|]. intros; apply A; right; auto. }
    cbn [fst snd]. rewrite FI; [rewrite map_length, linspace_length; pose proof n_bins_value; lia|].
    intros p I. apply in_map_iff in I. destruct I as (x & <- & I). cbn [snd]. change (linspace b) with (map (fun i => (b * (Z.of_nat i # 9999))%Q) (seq 0 n_bins)) in I. apply in_map_iff in I. destruct I as (i & <- & I). apply in_seq in I.
    pose proof n_bins_value. assert (U : (0 <= (Z.of_nat i # 9999) <= 1)%Q) by (split; qlia). nra. }
  unfold check_minimum_length_of_sequence, minimum_length_of_sequence. rewrite (proj2 (Nat.leb_le 50 _) LS). cbn [passert bind]. eexists. reflexivity.
Qed.
Lemma rising_none d : (forall i, (Z.of_nat i < 9999)%Z -> d (point i) <= d (point (S i)))%Q -> (0 <= d (point 0))%Q -> list_of_turning_points (map (fun x => (x, d x)) (linspace 100)) = [].
Proof.
  intros R R0. rewrite linspace_100, map_map. change (fun x : nat => (point x, d (point x))) with (fun i => (point i, (fun i => d (point i)) i)). unfold list_of_turning_points.
  pose proof n_bins_value as NB. replace (seq 0 n_bins) with (0 :: seq 1 (n_bins - 1)) by (replace n_bins with (1 + (n_bins - 1)) at 2 by lia; rewrite seq_app; reflexivity).
  cbn [map fold_left tstep turn old_distance]. rewrite (proj2 (Qlt_bool_false _ _) R0). cbn [xy].
  rewrite (fold_rise (fun i => d (point i)) [] (n_bins - 1) 0); [reflexivity|]. intros i B. replace i with (S (i - 1)) at 2 by lia. apply R. lia.
Qed.
Example C101_example_main :
  snd (main "/t" fro_ex best_ex (fun _ => None)) = Ok tt /\
  main "/t" (fun _ x => x) best_ex (fun _ => None) = (fun _ => None, Raise IndexError).
Proof.
  destruct full_ex as (s & G). split.
  - unfold main, main_orders, write_full_sequence, build_SKSM_and_identity, best_ex, fro_ex. change linspace_dims with (linspace 100). rewrite G. reflexivity.
  - unfold main, main_orders, write_full_sequence, build_SKSM_and_identity, generate_full_monotonic_sequence. change linspace_dims with (linspace 100). cbn zeta.
    rewrite (rising_none (fun x => x)); [reflexivity| |].
    + intros i B. apply point_mono. lia.
    + apply (Qle_refl 0).
Qed.
(** a table of two rows is read by the check and by create.main *)
Example C101_example_read :
  let fs : fsys table := fun p => if String.eqb p "/t/sequence_2.data" then Some [[Some 1; Some 2]; [Some 3; Some 4]]%Q else None in
  fs (data_of "/t" 2) = Some (map (fun r : Q * Q => [Some (fst r); Some (snd r)]) [(1, 2); (3, 4)]%Q) /\ py_int_str "2" = Ok 2%Z /\
  create_main (fun _ m => m) "/t" fs [AStr "create.py"; AInt 2; AFloat 0] = Ok tt /\ create_main (fun _ m => m) "/t" fs [AStr "create.py"; AInt 3; AFloat 1] = Raise AssertionError.
Proof. repeat split. Qed.
