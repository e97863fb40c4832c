From Coq Require Import QArith Sorting.Sorted Lia.
From Verif Require Import Common Common_Proofs PyStr_Model PyStr_Proofs FileName_Model FileName_Proofs FileStruct_Model Json_Model Json_Spec Json_Proofs Json2_Proofs Json3_Proofs Json6_Proofs Analysis_Model Plot_Spec Plot_Model Plot_Proofs.
Local Open Scope string_scope.
Local Open Scope list_scope.
Local Open Scope nat_scope.

Section P.
  Variable F : Type.
  Variable nan : F.
  Variable of_int : Z -> res F.
  Variable of_repr : string -> F.
  Variable of_text : string -> res F.
  Notation to_f64 := (to_f64 F nan of_int of_repr of_text).
  Notation fill := (fill F nan of_int of_repr of_text).
  Notation load_turn := (load_turn F nan of_int of_repr of_text).
  Notation grid := (grid F).
  Notation cell := (cell F).

  Definition is_hash (k : string) : Prop := k = "hash_vib" \/ k = "hash_rho".
  Definition is_field (k : string) : Prop :=
    In k ["Z"; "Z error"; "E"; "E error"; "Cv"; "Cv error"; "jk_E"; "jk_E error"; "jk_Cv"; "jk_Cv error"].
  (** a file that can be loaded, and the values in it *)
  Definition loadable (kvs : list (string * json)) : Prop :=
    NoDup (map fst kvs) /\ forall k v, In (k, v) kvs -> is_hash k \/ is_field k /\ exists x, to_f64 v = Ok x.
  Lemma hash_iff k : String.eqb k "hash_vib" || String.eqb k "hash_rho" = true <-> is_hash k.
  Proof. rewrite orb_true_iff, !String.eqb_eq. reflexivity. Qed.
  Lemma field_iff k : existsb (String.eqb k) field_names = true <-> is_field k.
  Proof.
    rewrite existsb_exists. unfold is_field, field_names. split.
    - intros (x & I & E). apply String.eqb_eq in E. subst. exact I.
    - intros I. exists k. split; [exact I|apply String.eqb_refl].
  Qed.
  Lemma field_not_hash k : is_field k -> ~ is_hash k.
  Proof. unfold is_field, is_hash. cbn. intros H [->| ->]; intuition discriminate. Qed.
  Lemma fill_ok kvs : loadable kvs -> forall e, exists e', fill (JObj kvs) e = Ok e' /\
    forall n, match dget String.eqb kvs n with
              | Some v => (is_hash n -> e' n = e n) /\ (~ is_hash n -> to_f64 v = Ok (e' n))
              | None => e' n = e n
              end.
  Proof.
    intros [N L]. cbn [Plot_Model.fill]. induction kvs as [|[k v] kvs IH]; intros e.
    - exists e. split; [reflexivity|]. intros n. reflexivity.
    - cbn [map fst] in N. inversion N as [|? ? N1 N2]; subst. cbn [for_res fst snd].
      assert (L' : forall k0 v0, In (k0, v0) kvs -> is_hash k0 \/ is_field k0 /\ exists x, to_f64 v0 = Ok x) by (intros k0 v0 I; apply (L k0 v0); right; exact I).
      destruct (L k v ltac:(left; reflexivity)) as [H|[H [x X]]].
      + pose proof (proj2 (hash_iff k) H) as H'. rewrite H'. destruct (IH N2 L' e) as (e' & E & C). exists e'. split; [exact E|]. intros n. cbn [dget].
        destruct (String.eqb_spec n k) as [<-|NE]; [|apply C]. specialize (C n). apply (proj2 (dget_None String.eqb String.eqb_eq kvs n)) in N1. rewrite N1 in C. split; [intros _; exact C|tauto].
      + destruct (String.eqb k "hash_vib" || String.eqb k "hash_rho") eqn:B; [apply hash_iff in B; destruct (field_not_hash k H B)|].
        unfold set_field. rewrite (proj2 (field_iff k) H), X. cbn [bind].
        destruct (IH N2 L' (fun m => if String.eqb m k then x else e m)) as (e' & E & C). exists e'. split; [exact E|]. intros n. cbn [dget]. specialize (C n).
        destruct (String.eqb_spec n k) as [<-|NE].
        * apply (proj2 (dget_None String.eqb String.eqb_eq kvs n)) in N1. rewrite N1 in C. split; [intros HH; destruct (field_not_hash n H HH)|intros _; rewrite C; exact X].
        * exact C.
  Qed.
  Lemma fill_inv data e e' : fill data e = Ok e' -> exists kvs, data = JObj kvs /\ forall k v, In (k, v) kvs -> is_hash k \/ is_field k /\ exists x, to_f64 v = Ok x.
  Proof.
    destruct data; try discriminate. cbn [Plot_Model.fill]. intros H. exists l. split; [reflexivity|]. revert e H. induction l as [|[k v] l IH]; intros e H k0 v0 I; [destruct I|].
    cbn [for_res fst snd] in H. destruct (String.eqb k "hash_vib" || String.eqb k "hash_rho") eqn:B.
    - destruct I as [E|I]; [injection E as <- <-; left; apply hash_iff; exact B|exact (IH _ H _ _ I)].
    - unfold set_field in H. destruct (existsb (String.eqb k) field_names) eqn:FN; [|discriminate]. destruct (to_f64 v) as [x|x] eqn:X; [|discriminate]. cbn [bind] in H.
      destruct I as [E|I]; [injection E as <- <-; right; split; [apply field_iff; exact FN|eauto]|exact (IH _ H _ _ I)].
  Qed.

  (** the position of a file in the array *)
  Definition place (p : params) (x : entry) (i j k : nat) : Prop :=
    nth_error (lst_P p) i = Some (fst (fst x)) /\
    (exists q, nth_error (lst_T p) j = Some q /\ (q == hundredths (snd (fst x)) # 100)%Q) /\
    nth_error (lst_X p) k = Some (snd x).
  (** an element that holds the values of a file *)
  Definition holds (kvs : list (string * json)) (e : string -> F) : Prop :=
    forall n, match dget String.eqb kvs n with
              | Some v => (is_hash n -> e n = nan) /\ (~ is_hash n -> to_f64 v = Ok (e n))
              | None => e n = nan
              end.
  Definition file_of (fs : fsys string) (dir : string) (x : entry) (kvs : list (string * json)) : Prop :=
    exists text, fs (entry_path dir x) = Some text /\ loads text = Ok (JObj kvs).
  Lemma place_same p x y i j k : place p x i j k -> place p y i j k -> same_entry x y.
  Proof.
    intros (A & (q & B & E) & C) (A' & (q' & B' & E') & C'). repeat split; [congruence| |congruence].
    assert (q = q') by congruence. subst q'. rewrite E in E'. unfold Qeq in E'. cbn in E'. lia.
  Qed.
  Lemma same_place p x y i j k : same_entry x y -> place p x i j k -> place p y i j k.
  Proof.
    intros (A & B & C) (P1 & (q & P2 & P3) & P4). unfold place. rewrite <- A, <- B, <- C. repeat split; auto. exists q. auto.
  Qed.
  Section Load.
    Variables (skip : bool) (fs : fsys string) (p : params) (dir : string).
    Hypothesis QD : quiet_dir dir.
    Hypothesis NP : NoDup (lst_P p).
    Hypothesis IT : increasing_Q (lst_T p).
    Hypothesis IX : increasing_Z (lst_X p).
    Lemma turn_ok x kvs g : entry_ok x -> (exists q, In q (lst_T p) /\ (q == hundredths (snd (fst x)) # 100)%Q) -> In (snd x) (lst_X p) -> In (fst (fst x)) (lst_P p) ->
      file_of fs dir x kvs -> loadable kvs ->
      exists i j k e, place p x i j k /\ load_turn skip fs p g (entry_path dir x) = Ok (with_cell F g i j k e) /\
        forall n, match dget String.eqb kvs n with
                  | Some v => (is_hash n -> e n = cell g i j k n) /\ (~ is_hash n -> to_f64 v = Ok (e n))
                  | None => e n = cell g i j k n
                  end.
    Proof.
      intros O (q & IQ & EQ) XX PP (text & R & LD) LO. destruct (quiet_extract dir x QD O) as (X1 & (t & X2 & T2) & X3).
      apply In_nth_error in IQ. destruct IQ as [j J]. apply In_nth_error in PP. destruct PP as [i I]. apply In_nth_error in XX. destruct XX as [k K].
      destruct (fill_ok kvs LO (cell g i j k)) as (e & E & C). exists i, j, k, e. split; [split; [exact I|split; [eauto|exact K]]|]. split; [|exact C].
      unfold Plot_Model.load_turn. rewrite X1, X2, X3. cbn [bind].
      assert (PB : existsb (Z.eqb (fst (fst x))) (lst_P p) = true) by (apply existsb_exists; exists (fst (fst x)); split; [eapply nth_error_In; exact I|apply Z.eqb_refl]).
      rewrite PB. cbn [negb]. rewrite andb_false_r.
      rewrite (index_NoDup _ _ _ NP I), (index_Q _ _ t q IT J) by (rewrite EQ, T2; reflexivity). rewrite (index_Z _ _ _ IX K). cbn [bind].
      unfold load_json. rewrite R, LD. cbn [bind]. rewrite E. reflexivity.
    Qed.
    Lemma turn_skip x g : entry_ok x -> ~ In (fst (fst x)) (lst_P p) -> skip = true -> load_turn skip fs p g (entry_path dir x) = Ok g.
    Proof.
      intros O N ->. destruct (quiet_extract dir x QD O) as (X1 & (t & X2 & T2) & X3). unfold Plot_Model.load_turn. rewrite X1, X2, X3. cbn [bind].
      assert (PB : existsb (Z.eqb (fst (fst x))) (lst_P p) = false).
      { destruct (existsb (Z.eqb (fst (fst x))) (lst_P p)) eqn:E; [|reflexivity]. apply existsb_exists in E. destruct E as (z & I & E). apply Z.eqb_eq in E. subst z. destruct (N I). }
      rewrite PB. reflexivity.
    Qed.
    Variable l : list entry.
    Variable values : entry -> list (string * json).
    Hypothesis OK : Forall entry_ok l.
    Hypothesis DI : distinct_entries l.
    Hypothesis CT : forall x, In x l -> exists q, In q (lst_T p) /\ (q == hundredths (snd (fst x)) # 100)%Q.
    Hypothesis CX : forall x, In x l -> In (snd x) (lst_X p).
    Hypothesis CP : forall x, In x l -> skip = true \/ In (fst (fst x)) (lst_P p).
    Hypothesis FL : forall x, In x l -> In (fst (fst x)) (lst_P p) -> file_of fs dir x (values x) /\ loadable (values x).
    Lemma load_ok : exists g, Plot_Model.load_pimc_data F nan of_int of_repr of_text skip fs p (map (entry_path dir) l) = Ok g /\
      dimP F g = List.length (lst_P p) /\ dimT F g = List.length (lst_T p) /\ dimX F g = List.length (lst_X p) /\
      (forall x i j k, In x l -> place p x i j k -> holds (values x) (cell g i j k)) /\
      (forall i j k, (forall x, In x l -> ~ place p x i j k) -> forall n, cell g i j k n = nan).
    Proof.
      unfold Plot_Model.load_pimc_data.
      assert (G : forall r d g, l = d ++ r -> dimP F g = List.length (lst_P p) -> dimT F g = List.length (lst_T p) -> dimX F g = List.length (lst_X p) ->
        (forall x i j k, In x d -> place p x i j k -> holds (values x) (cell g i j k)) ->
        (forall i j k, (forall x, In x d -> ~ place p x i j k) -> forall n, cell g i j k n = nan) ->
        exists g', for_res (load_turn skip fs p) (map (entry_path dir) r) g = Ok g' /\ dimP F g' = List.length (lst_P p) /\ dimT F g' = List.length (lst_T p) /\ dimX F g' = List.length (lst_X p) /\
        (forall x i j k, In x l -> place p x i j k -> holds (values x) (cell g' i j k)) /\
        (forall i j k, (forall x, In x l -> ~ place p x i j k) -> forall n, cell g' i j k n = nan)).
      { induction r as [|x r IH]; intros d g E D1 D2 D3 A B.
        - rewrite app_nil_r in E. subst d. exists g. split; [reflexivity|]. auto.
        - assert (IXL : In x l) by (rewrite E; apply in_or_app; right; left; reflexivity).
          assert (OX : entry_ok x) by (rewrite Forall_forall in OK; auto).
          assert (FR : forall y i j k, In y d -> place p x i j k -> ~ place p y i j k).
          { intros y i j k I PX PY. pose proof (place_same p y x i j k PY PX) as SE. apply In_nth_error in I. destruct I as [m M].
            assert (m < List.length d) by (apply nth_error_Some; congruence).
            assert (m = List.length d); [|lia]. apply (DI m (List.length d) y x); auto; rewrite E; [rewrite nth_error_app1; auto|rewrite nth_error_app2, Nat.sub_diag; auto]. }
          cbn [map for_res].
          destruct (in_dec Z.eq_dec (fst (fst x)) (lst_P p)) as [PI|PI].
          + destruct (FL x IXL PI) as [F1 F2]. destruct (turn_ok x (values x) g OX (CT x IXL) (CX x IXL) PI F1 F2) as (i & j & k & e & PL & EQ & C). rewrite EQ.
            apply (IH (d ++ [x])); [rewrite E, <- app_assoc; reflexivity|exact D1|exact D2|exact D3| |].
            * intros y i' j' k' IY PY. apply in_app_or in IY. cbn [Plot_Model.with_cell Plot_Model.cell].
              destruct (Nat.eqb_spec i' i), (Nat.eqb_spec j' j), (Nat.eqb_spec k' k); cbn [andb]; try subst;
                try (destruct IY as [IY|[<-|[]]]; [exact (A y _ _ _ IY PY)|exfalso;
                  destruct PL as (L1 & (q1 & L2 & L3) & L4), PY as (Y1 & (q2 & Y2 & Y3) & Y4);
                  first [ apply n; eapply (proj1 (NoDup_nth_error _) NP); [apply nth_error_Some; congruence|congruence]
                        | apply n; eapply (increasing_Q_one _ _ _ _ _ IT); [exact Y2|exact L2|rewrite Y3, L3; reflexivity]
                        | apply n; eapply (increasing_Z_one _ _ _ _ IX); [exact Y4|exact L4] ]]).
              destruct IY as [IY|[<-|[]]]; [destruct (FR y _ _ _ IY PL PY)|].
              intros n. specialize (C n). assert (NA : cell g i j k n = nan) by (apply B; intros z IZ; apply FR; auto). rewrite NA in C. exact C.
            * intros i' j' k' NO n. cbn [Plot_Model.with_cell Plot_Model.cell].
              destruct (Nat.eqb_spec i' i), (Nat.eqb_spec j' j), (Nat.eqb_spec k' k); cbn [andb]; try (apply B; intros z IZ; apply NO; apply in_or_app; left; exact IZ).
              subst. destruct (NO x ltac:(apply in_or_app; right; left; reflexivity) PL).
          + destruct (CP x IXL) as [SK|PP]; [|destruct (PI PP)]. rewrite (turn_skip x g OX PI SK).
            assert (NPL : forall i j k, ~ place p x i j k) by (intros i j k (P1 & _); apply PI; eapply nth_error_In; exact P1).
            apply (IH (d ++ [x])); [rewrite E, <- app_assoc; reflexivity|exact D1|exact D2|exact D3| |].
            * intros y i' j' k' IY PY. apply in_app_or in IY. destruct IY as [IY|[<-|[]]]; [exact (A y _ _ _ IY PY)|destruct (NPL _ _ _ PY)].
            * intros i' j' k' NO n. apply B. intros z IZ. apply NO. apply in_or_app. left. exact IZ. }
      apply (G l [] (empty_grid F nan p)); auto. intros x i j k [].
    Qed.
  End Load.
  (** what a successful loading says of the files *)
  Lemma load_inv skip fs p paths g g' : for_res (load_turn skip fs p) paths g = Ok g' ->
    forall path, In path paths -> (exists P, extract_bead path = Ok P /\ (skip = true /\ ~ In P (lst_P p) \/
      exists text kvs, fs path = Some text /\ loads text = Ok (JObj kvs) /\ loadable kvs)).
  Proof.
    revert g. induction paths as [|a paths IH]; intros g H path I; [destruct I|]. cbn [for_res] in H. destruct (load_turn skip fs p g a) as [g1|] eqn:T; [|discriminate].
    destruct I as [<-|I]; [|exact (IH _ H _ I)]. unfold Plot_Model.load_turn in T. destruct (extract_bead a) as [P|]; [|discriminate]. cbn [bind] in T. exists P. split; [reflexivity|].
    destruct (extract_temperature_thermo a) as [t|]; [|discriminate]. destruct (extract_sample_thermo a) as [X|]; [|discriminate]. cbn [bind] in T.
    destruct (skip && negb (existsb (Z.eqb P) (lst_P p))) eqn:SK.
    - left. apply andb_true_iff in SK. destruct SK as [-> SK]. split; [reflexivity|]. intros IP. apply negb_true_iff in SK. rewrite <- not_true_iff_false in SK. apply SK. apply existsb_exists. exists P. split; [exact IP|apply Z.eqb_refl].
    - right. destruct (index Z.eqb P (lst_P p)) as [i|]; [|discriminate]. destruct (index Qeq_bool t (lst_T p)) as [j|]; [|discriminate]. destruct (index Z.eqb X (lst_X p)) as [k|]; [|discriminate]. cbn [bind] in T.
      unfold load_json in T. destruct (fs a) as [text|]; [|discriminate]. destruct (loads text) as [data|] eqn:LD; [|discriminate]. cbn [bind] in T.
      destruct (fill data (cell g i j k)) as [e|] eqn:FI; [|discriminate]. destruct (fill_inv _ _ _ FI) as (kvs & -> & K). exists text, kvs. split; [reflexivity|]. split; [exact LD|]. split; [|exact K].
      apply loads_wf in LD. destruct LD as [_ LD]. apply every_obj in LD. apply LD.
  Qed.
End P.
