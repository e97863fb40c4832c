(** C105: random models and the regenerated input models. *)
From Coq Require Import QArith Qround.
From Verif Require Import Common Common_Proofs PyStr_Model PyStr_Proofs Arr_Model Arr_Proofs ModelIO_Model ModelIO_Spec ModelIO_Proofs ModelIO2_Proofs SameModel_Model ModelIO_Props
  Create_Model Create_Spec Create_Proofs Create2_Proofs Create3_Proofs Create4_Proofs Create_Props Random_Model.
Local Open Scope nat_scope.
Local Open Scope string_scope.

Section C105.
  Context {V : Type}.
  Variables (zero : V) (add : V -> V -> V) (opp : V -> V) (div : V -> V -> V).
  Variable isz : V -> bool.
  Variable vint : V -> res Z.
  Variable close : V -> V -> bool.
  Variable linspace : V -> V -> nat -> nat -> V.
  Variable lit : Q -> V.
  Notation generate rnd := (generate_data zero add opp div isz vint close linspace lit rnd).

  (** the value used for an entry of the parameters: the given one or the default *)
  Definition chosen (i : list (string * gval)) (k : string) (dflt v : @gval V) : Prop :=
    In (k, v) i \/ (v = dflt /\ ~ In k (map fst i)).
  (** the six entries that are looked at *)
  Definition six : list string := ["energy_range"; "frequency_range"; "numModes"; "numStates"; "linear_scaling"; "diagonal"].

  Lemma dget_in {X} (l : list (string * X)) k v : NoDup (map fst l) -> In (k, v) l -> dget String.eqb l k = Some v.
  Proof.
    induction l as [|[a b] l IH]; intros N H; [destruct H|]. inversion N as [|? ? N1 N2]; subst. cbn [dget].
    destruct H as [H|H].
    - injection H as -> ->. rewrite String.eqb_refl. reflexivity.
    - destruct (String.eqb_spec k a) as [->|]; [|apply IH; assumption].
      exfalso. apply N1. apply (in_map fst) in H. exact H.
  Qed.
  Lemma dget_out {X} (l : list (string * X)) k : ~ In k (map fst l) -> dget String.eqb l k = None.
  Proof.
    induction l as [|[a b] l IH]; intros H; [reflexivity|]. cbn [dget]. destruct (String.eqb_spec k a) as [->|]; [exfalso; apply H; left; reflexivity|].
    apply IH. intros C. apply H. right. exact C.
  Qed.
  Lemma dset_get {X} (l : list (string * X)) a b k : dget String.eqb (dset String.eqb l a b) k = if String.eqb k a then Some b else dget String.eqb l k.
  Proof.
    induction l as [|[c d] l IH]; [cbn; destruct (String.eqb k a); reflexivity|].
    cbn [dset]. destruct (String.eqb_spec a c) as [E|N]; cbn [dget].
    - rewrite E. destruct (String.eqb k c); reflexivity.
    - rewrite IH. destruct (String.eqb_spec k c) as [E|]; [|reflexivity]. rewrite E. destruct (String.eqb_spec c a); [congruence|reflexivity].
  Qed.
  Lemma dupdate_get {X} (i d : list (string * X)) k : NoDup (map fst i) ->
    dget String.eqb (dupdate String.eqb d i) k = match dget String.eqb i k with Some v => Some v | None => dget String.eqb d k end.
  Proof.
    unfold dupdate. revert d. induction i as [|[a b] i IH]; intros d N; [reflexivity|]. inversion N as [|? ? N1 N2]; subst. cbn [fold_left fst snd dget].
    rewrite IH, dset_get by exact N2. destruct (String.eqb_spec k a) as [->|]; [|reflexivity]. rewrite (dget_out i a N1). reflexivity.
  Qed.

  Lemma read_dget i : NoDup (map fst i) ->
    read_params isz lit (Some i) =
    (let g k dflt := match dget String.eqb i k with Some v => v | None => dflt end in
     do e <- as_pair (g "energy_range" (GPair (lit 0) (lit 2)));
     do f <- as_pair (g "frequency_range" (GPair (lit (2 # 100)) (lit (4 # 100))));
     do n <- as_int (g "numModes" (GInt 3));
     do a <- as_int (g "numStates" (GInt 2));
     do l <- as_num lit (g "linear_scaling" (GNum (lit (4 # 100))));
     Ok {| g_freq := f; g_energy := e; g_linear := l; g_diagonal := truth isz (g "diagonal" (GBool false)); g_states := a; g_modes := n |}).
  Proof.
    intros N. unfold read_params, pitem. cbv beta zeta. rewrite !dupdate_get by exact N.
    change (dget String.eqb (default_params lit) "energy_range") with (Some (GPair (lit 0) (lit 2))).
    change (dget String.eqb (default_params lit) "frequency_range") with (Some (GPair (lit (2 # 100)) (lit (4 # 100)))).
    change (dget String.eqb (default_params lit) "numModes") with (Some (@GInt V 3)).
    change (dget String.eqb (default_params lit) "numStates") with (Some (@GInt V 2)).
    change (dget String.eqb (default_params lit) "linear_scaling") with (Some (GNum (lit (4 # 100)))).
    change (dget String.eqb (default_params lit) "diagonal") with (Some (@GBool V false)).
    repeat match goal with |- context [match dget String.eqb i ?k with Some v => Some v | None => Some ?x end] =>
      replace (match dget String.eqb i k with Some v => Some v | None => Some x end) with (Some (match dget String.eqb i k with Some v => v | None => x end)) by (destruct (dget String.eqb i k); reflexivity) end.
    reflexivity.
  Qed.

  Lemma chosen_get i k dflt v : NoDup (map fst i) -> chosen i k dflt v -> match dget String.eqb i k with Some v => v | None => dflt end = v.
  Proof. intros N [H|[-> H]]; [rewrite (dget_in i k v N H); reflexivity|rewrite (dget_out i k H); reflexivity]. Qed.

  (** A model is generated from the given entries, and from the defaults for those
      which are not given. *)
  Theorem C105_parameters rnd i e1 e2 f1 f2 n a l b : NoDup (map fst i) ->
    chosen i "energy_range" (GPair (lit 0) (lit 2)) (GPair e1 e2) ->
    chosen i "frequency_range" (GPair (lit (2 # 100)) (lit (4 # 100))) (GPair f1 f2) ->
    chosen i "numModes" (GInt 3) (GInt n) -> chosen i "numStates" (GInt 2) (GInt a) ->
    chosen i "linear_scaling" (GNum (lit (4 # 100))) (GNum l) -> chosen i "diagonal" (GBool false) (GBool b) ->
    generate rnd (Some i) =
      generate_model zero add opp div vint close rnd linspace
        {| g_freq := (f1, f2); g_energy := (e1, e2); g_linear := l; g_diagonal := b; g_states := a; g_modes := n |} /\
    (i = [] -> generate rnd None = generate rnd (Some i)).
  Proof.
    intros N H1 H2 H3 H4 H5 H6. split; [|intros ->; reflexivity]. unfold generate_data. rewrite (read_dget i N). cbv beta zeta.
    rewrite (chosen_get _ _ _ _ N H1), (chosen_get _ _ _ _ N H2), (chosen_get _ _ _ _ N H3), (chosen_get _ _ _ _ N H4), (chosen_get _ _ _ _ N H5), (chosen_get _ _ _ _ N H6). reflexivity.
  Qed.

  (** Other entries are not looked at. *)
  Theorem C105_other_entries rnd i j : NoDup (map fst i) -> NoDup (map fst j) ->
    (forall k v, In k six -> (In (k, v) i <-> In (k, v) j)) -> generate rnd (Some i) = generate rnd (Some j).
  Proof.
    intros Ni Nj H. assert (G : forall k, In k six -> dget String.eqb i k = dget String.eqb j k).
    { intros k K. destruct (in_dec string_dec k (map fst j)) as [C|C].
      - apply in_map_iff in C. destruct C as ((k' & v) & E & C). cbn in E. subst k'. rewrite (dget_in j _ v Nj C). apply dget_in; [exact Ni|]. apply H; assumption.
      - rewrite (dget_out j k C). apply dget_out. intros D. apply in_map_iff in D. destruct D as ((k' & v) & E & D). cbn in E. subst k'. apply C. apply H in D; [|exact K]. apply (in_map fst) in D. exact D. }
    unfold generate_data. rewrite (read_dget i Ni), (read_dget j Nj). cbv beta zeta. rewrite !G by (unfold six; cbn; tauto). reflexivity.
  Qed.

  (** That the quadratic couplings can be scaled, or coupling be switched off with the
      entry of the example, is wrong: neither entry has an effect. *)
  Theorem C105_scaling_refuted rnd i k v : k = "quadratic_scaling" \/ k = "nonadiabatic" -> NoDup (k :: map fst i) ->
    generate rnd (Some ((k, v) :: i)) = generate rnd (Some i).
  Proof.
    intros K N. inversion N; subst. apply C105_other_entries; [exact N|assumption|].
    intros x y X. cbn [In]. split; [|tauto]. intros [E|E]; [|exact E]. exfalso. injection E as -> ->. unfold six in X. cbn in X.
    destruct K as [->| ->]; repeat (destruct X as [X|X]; [discriminate X|]); exact X.
  Qed.

  (** A number, a truth value or a list in the wrong place is refused. *)
  Theorem C105_types rnd i k v : NoDup (map fst i) -> In (k, v) i ->
    (In k ["energy_range"; "frequency_range"] /\ (forall a b, v <> GPair a b)) \/
    (In k ["numModes"; "numStates"] /\ ((exists x, v = GNum x) \/ exists a b, v = GPair a b)) \/
    (k = "linear_scaling" /\ exists a b, v = GPair a b) ->
    generate rnd (Some i) = Raise TypeError.
  Proof.
    intros N H C. assert (G := dget_in i k v N H). unfold generate_data. rewrite (read_dget i N). cbv beta zeta.
    assert (P : forall x : @gval V, (forall a b, x <> GPair a b) -> as_pair x = Raise TypeError) by (intros [] X; try reflexivity; exfalso; eapply X; reflexivity).
    assert (P2 : forall x : @gval V, as_pair x = Raise TypeError \/ exists y, as_pair x = Ok y) by (intros []; cbn; eauto).
    assert (P3 : forall x : @gval V, as_int x = Raise TypeError \/ exists y, as_int x = Ok y) by (intros []; cbn; eauto).
    set (x1 := match dget String.eqb i "energy_range" with Some v => v | None => GPair (lit 0) (lit 2) end) in *.
    set (x2 := match dget String.eqb i "frequency_range" with Some v => v | None => _ end) in *.
    set (x3 := match dget String.eqb i "numModes" with Some v => v | None => _ end) in *.
    set (x4 := match dget String.eqb i "numStates" with Some v => v | None => _ end) in *.
    set (x5 := match dget String.eqb i "linear_scaling" with Some v => v | None => _ end) in *.
    destruct (P2 x1) as [->|(y1 & E1)]; [reflexivity|]. rewrite E1. cbn [bind].
    destruct (P2 x2) as [->|(y2 & E2)]; [reflexivity|]. rewrite E2. cbn [bind].
    destruct (P3 x3) as [->|(y3 & E3)]; [reflexivity|]. rewrite E3. cbn [bind].
    destruct (P3 x4) as [->|(y4 & E4)]; [reflexivity|]. rewrite E4. cbn [bind].
    destruct C as [[[<-|[<-|[]]] C]|[[[<-|[<-|[]]] C]|[-> C]]].
    - subst x1. rewrite G, (P v C) in E1. discriminate.
    - subst x2. rewrite G, (P v C) in E2. discriminate.
    - subst x3. rewrite G in E3. destruct C as [(x & ->)|(a & b & ->)]; discriminate.
    - subst x4. rewrite G in E4. destruct C as [(x & ->)|(a & b & ->)]; discriminate.
    - subst x5. rewrite G. destruct C as (a & b & ->). reflexivity.
  Qed.

  (** ints and bools count as numbers *)
  Theorem C105_numbers rnd i z b c : NoDup (map fst (("linear_scaling", GInt z) :: ("diagonal", b) :: ("numModes", GBool c) :: i)) ->
    generate rnd (Some (("linear_scaling", GInt z) :: ("diagonal", b) :: ("numModes", GBool c) :: i)) =
    generate rnd (Some (("linear_scaling", GNum (lit (inject_Z z))) ::
                        ("diagonal", GBool (match b with GNum x => negb (isz x) | GInt z => negb (z =? 0)%Z | GBool b => b | GPair _ _ => true end)) ::
                        ("numModes", GInt (if c then 1 else 0)) :: i)).
  Proof. intros N. unfold generate_data. rewrite !read_dget by exact N. cbn [dget String.eqb Ascii.eqb Bool.eqb]. destruct b, c; reflexivity. Qed.

  Hypothesis add_zero_r : forall x, add x zero = x.
  Hypothesis add_zero_l : forall x, add zero x = x.
  Hypothesis close_refl : forall x, close x x = true.

  Lemma ser (d : mdict V) k A N : dict_ok d -> known_keys d -> valid vint k A N d -> serialisable d.
  Proof.
    intros [D _] K [[(vn & Hn & In_) (va & Ha & Ia)] Va] key v H. destruct (K _ _ H) as [m ->].
    assert (U : forall x y, has d (KV m) x -> has d (KV m) y -> x = y).
    { intros x y X Y. unfold has in X, Y. clear - D X Y. induction d as [|[a b] l IH]; [destruct X|]. inversion D as [|? ? N1 N2]; subst.
      destruct X as [X|X], Y as [Y|Y]; [congruence| | |auto].
      - injection X as -> ->. exfalso. apply N1. apply (in_map fst) in Y. exact Y.
      - injection Y as -> ->. exfalso. apply N1. apply (in_map fst) in X. exact X. }
    destruct (spec_shape k A N m) as [s|] eqn:E.
    - destruct (Va m v s H E) as (a & -> & _). discriminate.
    - destruct m; try discriminate E.
      + rewrite (U _ _ H Hn). inversion In_; discriminate.
      + rewrite (U _ _ H Ha). inversion Ia; discriminate.
  Qed.

  (** ** the input models of the artificial systems *)
  (** what is written for a name: states, modes, ranges of frequencies and energies *)
  Definition system (name : string) (A N : nat) (f1 f2 e1 e2 : Q) : Prop :=
    (name = "4x6" /\ A = 4 /\ N = 6 /\ (f1, f2) = (14 # 100, 45 # 100)%Q /\ (e1, e2) = (103 # 10, 109 # 10)%Q) \/
    (name = "7x12" /\ A = 7 /\ N = 12 /\ (f1, f2) = (1 # 10, 39 # 100)%Q /\ (e1, e2) = (14, 148 # 10)%Q).

  Lemma file_path dir name : ends_with_slash dir = false -> join (join dir "input_json") ("model_" ++ name ++ ".json") = (dir ++ "/input_json/model_" ++ name ++ ".json")%string.
  Proof.
    intros D1. unfold join. change (String.prefix "/" "input_json") with false. cbv iota. rewrite D1. change (String.prefix "/" ("model_" ++ name ++ ".json")) with false. cbv iota.
    assert (X : ends_with_slash (dir ++ "/" ++ "input_json") = false).
    { assert (L : forall p y, ends_with_slash y = false -> ends_with_slash (p ++ y) = false).
      { intros p y Y. destruct y as [|c y]; [discriminate|]. induction p as [|b p IH]; [exact Y|].
        cbn [String.append]. unfold ends_with_slash in IH |- *. cbn [String.length]. destruct (p ++ String c y) as [|c' t] eqn:E; [destruct p; discriminate|]. cbn [String.length String.get] in IH |- *. exact IH. }
      apply (L dir ("/" ++ "input_json")). reflexivity. }
    rewrite X. rewrite !append_assoc. reflexivity.
  Qed.

  Theorem C105_input rnd dir (f : fs V) name A N f1 f2 e1 e2 : isz zero = true -> dir <> "" -> ends_with_slash dir = false -> system name A N f1 f2 e1 e2 ->
    let path := (dir ++ "/input_json/model_" ++ name ++ ".json")%string in
    let w i := linspace (lit f1) (lit f2) N i in
    let s i := div (lit (4 # 100)) (w i) in
    exists f' d, generate_input_file zero add opp div isz vint close linspace lit rnd dir f name = (f', Ok tt) /\
      (forall q, q <> path -> f' q = f q) /\
      load_new zero vint Coupled f' path = Ok d /\ dict_ok d /\ valid vint Coupled (Z.of_nat A) (Z.of_nat N) d /\
      exists d0, generate rnd (Some [("frequency_range", GPair (lit f1) (lit f2)); ("energy_range", GPair (lit e1) (lit e2));
                                     ("numStates", GInt (Z.of_nat A)); ("numModes", GInt (Z.of_nat N))]) = Ok d0 /\
      same_numbers zero isz d0 d /\ surface_symmetric d0 /\
      (forall i, i < N -> reads zero d0 w_ [i] (w i)) /\
      (forall a b, a < A -> b < A -> reads zero d0 E_ [a; b] (rnd 0 (lit e1) (lit e2) [Nat.max a b; Nat.min a b])) /\
      (forall i a b, i < N -> a < A -> b < A -> reads zero d0 G1_ [i; a; b] (rnd (1 + i) (opp (s i)) (s i) [Nat.max a b; Nat.min a b])).
  Proof.
    intros Z0 D0 D1 S path w s.
    assert (EP := file_path dir name D1). fold path in EP.
    unfold generate_input_file. cbv beta zeta. rewrite EP.
    set (i := [("frequency_range", GPair (lit f1) (lit f2)); ("energy_range", GPair (lit e1) (lit e2)); ("numStates", GInt (Z.of_nat A)); ("numModes", GInt (Z.of_nat N))]).
    set (p := {| g_freq := (lit f1, lit f2); g_energy := (lit e1, lit e2); g_linear := lit (4 # 100); g_diagonal := false; g_states := Z.of_nat A; g_modes := Z.of_nat N |}).
    assert (G : generate rnd (Some i) = generate_model zero add opp div vint close rnd linspace p).
    { unfold generate_data. rewrite read_dget; [reflexivity|]. cbn. repeat constructor; cbn; intuition discriminate. }
    assert (G2 : exists x, dget String.eqb (initial_parameters lit) name = Some x /\ generate rnd (Some x) = generate_model zero add opp div vint close rnd linspace p).
    { unfold p. destruct S as [(-> & -> & -> & F & E)|(-> & -> & -> & F & E)]; injection F as -> ->; injection E as -> ->; eexists; (split; [reflexivity|]);
        unfold generate_data; (rewrite read_dget; [reflexivity|]); cbn; repeat constructor; cbn; intuition discriminate. }
    destruct G2 as (x & X1 & X2). rewrite X1, X2.
    destruct (C09_coupled zero add opp div isz vint close rnd linspace add_zero_r add_zero_l close_refl p A N eq_refl eq_refl eq_refl)
      as (d & E & D & K & _ & Va & S1 & S2 & W & EE & GG & H). rewrite E.
    destruct (C01_coupled_save_load V zero isz vint f path d (Z.of_nat A) (Z.of_nat N) D K (ser _ _ _ _ D K Va) Va) as (f' & d' & Sv & O & L & D' & Va' & K' & R); [left; lia|].
    exists f', d'. split; [exact Sv|]. split; [exact O|]. split; [exact L|]. split; [exact D'|]. split; [exact Va'|].
    exists d. split; [rewrite G; exact E|]. split; [apply (C01_same_numbers V zero isz vint (Z.of_nat A) (Z.of_nat N)); assumption|].
    split; [exact S1|]. split; [exact W|]. split; [exact EE|exact GG].
  Qed.

  (** Other names are refused. *)
  Theorem C105_input_refused rnd dir (f : fs V) name : name <> "4x6" -> name <> "7x12" ->
    generate_input_file zero add opp div isz vint close linspace lit rnd dir f name = (f, Raise KeyError).
  Proof.
    intros A B. unfold generate_input_file. rewrite dget_out; [reflexivity|]. cbn. intuition.
  Qed.

  (** The script writes the two larger models, each one as if it were the only one,
      and nothing else; the model built by hand stays. *)
  Theorem C105_script rnds dir (f : fs V) : isz zero = true -> dir <> "" -> ends_with_slash dir = false ->
    let file name := (dir ++ "/input_json/model_" ++ name ++ ".json")%string in
    exists f', regenerate zero add opp div isz vint close linspace lit rnds dir f = (f', Ok tt) /\
      (forall q, q <> file "4x6" -> q <> file "7x12" -> f' q = f q) /\ f' (file "2x2") = f (file "2x2") /\
      forall name, name = "4x6" \/ name = "7x12" ->
        f' (file name) = fst (generate_input_file zero add opp div isz vint close linspace lit (rnds name) dir (fun _ => None) name) (file name) /\
        exists d, load_new zero vint Coupled f' (file name) = Ok d.
  Proof.
    intros Z0 D0 D1 file.
    assert (NE : forall a b, (a = "2x2" \/ a = "4x6" \/ a = "7x12") -> (b = "2x2" \/ b = "4x6" \/ b = "7x12") -> a <> b -> file a <> file b).
    { intros a b A B N E. apply N. unfold file in E. apply append_inj_l in E. apply (append_inj_l "/input_json/model_" (a ++ ".json") (b ++ ".json")) in E.
      intuition subst; try reflexivity; discriminate. }
    destruct (C105_input (rnds "4x6") dir f "4x6" 4 6 (14 # 100) (45 # 100) (103 # 10) (109 # 10) Z0 D0 D1 ltac:(left; auto 10)) as (f1 & d1 & E1 & O1 & L1 & _).
    destruct (C105_input (rnds "7x12") dir f1 "7x12" 7 12 (1 # 10) (39 # 100) 14 (148 # 10) Z0 D0 D1 ltac:(right; auto 10)) as (f2 & d2 & E2 & O2 & L2 & _).
    fold (file "4x6") in O1, L1. fold (file "7x12") in O2, L2.
    assert (Same : forall rnd name (g h : fs V) g' h', generate_input_file zero add opp div isz vint close linspace lit rnd dir g name = (g', Ok tt) ->
      generate_input_file zero add opp div isz vint close linspace lit rnd dir h name = (h', Ok tt) -> 
      g' (join (join dir "input_json") ("model_" ++ name ++ ".json")) = h' (join (join dir "input_json") ("model_" ++ name ++ ".json"))).
    { intros rnd name g h g' h' G H. unfold generate_input_file in G, H. cbv beta zeta in G, H. set (P := join (join dir "input_json") ("model_" ++ name ++ ".json")) in *.
      destruct (dget String.eqb (initial_parameters lit) name) as [p|]; [|discriminate]. destruct (generate_data _ _ _ _ _ _ _ _ _ _ _) as [d|]; [|discriminate].
      unfold save, save_raw in G, H.
      destruct (verify vint Coupled d); [|discriminate]. cbv zeta in G, H. destruct (dumps (strip_arrays isz (enum_to_string d))); [|discriminate].
      injection G as <-. injection H as <-. unfold fs_write. rewrite String.eqb_refl. reflexivity. }
    exists f2. split.
    { unfold regenerate, system_names. cbn [tl generate_files]. rewrite E1, E2. reflexivity. }
    split; [intros q A B; rewrite (O2 q B), (O1 q A); reflexivity|].
    split; [rewrite O2, O1 by (apply NE; auto; discriminate); reflexivity|].
    assert (J : forall name, join (join dir "input_json") ("model_" ++ name ++ ".json") = file name).
    { intros name. apply file_path. exact D1. }
    intros name [->| ->].
    - split.
      + rewrite O2 by (apply NE; auto; discriminate).
        destruct (C105_input (rnds "4x6") dir (fun _ => None) "4x6" 4 6 (14 # 100) (45 # 100) (103 # 10) (109 # 10) Z0 D0 D1 ltac:(left; auto 10)) as (g1 & ? & G1 & _).
        assert (X := Same _ _ _ _ _ _ E1 G1). rewrite J in X. rewrite G1. exact X.
      + exists d1. unfold load_new, load_raw, read_json in L1 |- *. rewrite O2 by (apply NE; auto; discriminate). exact L1.
    - split; [|exists d2; exact L2].
      destruct (C105_input (rnds "7x12") dir (fun _ => None) "7x12" 7 12 (1 # 10) (39 # 100) 14 (148 # 10) Z0 D0 D1 ltac:(right; auto 10)) as (g1 & ? & G1 & _).
      assert (X := Same _ _ _ _ _ _ E2 G1). rewrite J in X. rewrite G1. exact X.
  Qed.

  Variable randint : nat -> Z -> Z -> Z.
  Variable runif : nat -> V -> V -> V.
  Hypothesis randint_range : forall k lo hi, (lo <= hi)%Z -> (lo <= randint k lo hi <= hi)%Z.

  Lemma random_parameters rnd diagonal :
    generate rnd (Some (random_params lit randint runif diagonal)) =
    generate_model zero add opp div vint close rnd linspace
      {| g_freq := (lit (2 # 100), lit (4 # 100)); g_energy := (lit 0, lit 2); g_linear := runif 3 (lit (2 # 100)) (lit (6 # 100));
         g_diagonal := diagonal; g_states := randint 0 2 10; g_modes := randint 1 2 20 |}.
  Proof.
    unfold generate_data. rewrite read_dget; [reflexivity|].
    cbn. repeat constructor; cbn; intuition discriminate.
  Qed.

  (** Whatever is drawn, a random model is a valid symmetric coupled model with 2 to
      10 states and 2 to 20 modes. *)
  Theorem C105_random rnd :
    exists A N d, 2 <= A <= 10 /\ 2 <= N <= 20 /\ randint 0 2 10 = Z.of_nat A /\ randint 1 2 20 = Z.of_nat N /\
      create_random_model zero add opp div isz vint close linspace lit randint runif rnd = Ok d /\
      dict_ok d /\ known_keys d /\ valid vint Coupled (Z.of_nat A) (Z.of_nat N) d /\ surface_symmetric d /\ mode_symmetric d /\
      let w i := linspace (lit (2 # 100)) (lit (4 # 100)) N i in
      let s i := div (runif 3 (lit (2 # 100)) (lit (6 # 100))) (w i) in
      (forall i, i < N -> reads zero d w_ [i] (w i)) /\
      (forall a b, a < A -> b < A -> reads zero d E_ [a; b] (rnd 0 (lit 0) (lit 2) [Nat.max a b; Nat.min a b])) /\
      (forall i a b, i < N -> a < A -> b < A -> reads zero d G1_ [i; a; b] (rnd (1 + i) (opp (s i)) (s i) [Nat.max a b; Nat.min a b])) /\
      (forall m n idx, In m [G2_; G3_; G4_] -> mode_axes m = Some n -> inb (repeat N n ++ [A; A])%list idx -> reads zero d m idx zero).
  Proof.
    assert (RA := randint_range 0 2 10 ltac:(lia)). assert (RN := randint_range 1 2 20 ltac:(lia)).
    exists (Z.to_nat (randint 0 2 10)), (Z.to_nat (randint 1 2 20)).
    set (p := {| g_freq := (lit (2 # 100), lit (4 # 100)); g_energy := (lit 0, lit 2); g_linear := runif 3 (lit (2 # 100)) (lit (6 # 100));
         g_diagonal := false; g_states := randint 0 2 10; g_modes := randint 1 2 20 |}).
    destruct (C09_coupled zero add opp div isz vint close rnd linspace add_zero_r add_zero_l close_refl p (Z.to_nat (randint 0 2 10)) (Z.to_nat (randint 1 2 20)) eq_refl)
      as (d & E & D & K & _ & Va & S1 & S2 & W & EE & G & H); [cbn; lia|cbn; lia|].
    exists d. split; [lia|]. split; [lia|]. split; [lia|]. split; [lia|]. split; [unfold create_random_model; rewrite random_parameters; exact E|].
    split; [exact D|]. split; [exact K|]. split; [exact Va|]. split; [exact S1|]. split; [exact S2|]. cbv beta zeta. split; [exact W|]. split; [exact EE|]. split; [exact G|exact H].
  Qed.

  Theorem C105_random_diagonal rnd :
    exists A N d, 2 <= A <= 10 /\ 2 <= N <= 20 /\ randint 0 2 10 = Z.of_nat A /\ randint 1 2 20 = Z.of_nat N /\
      create_random_diagonal_model zero add opp div isz vint close linspace lit randint runif rnd = Ok d /\
      dict_ok d /\ known_keys d /\ valid vint Diagonal (Z.of_nat A) (Z.of_nat N) d /\
      let w i := linspace (lit (2 # 100)) (lit (4 # 100)) N i in
      let s i := div (runif 3 (lit (2 # 100)) (lit (6 # 100))) (w i) in
      (forall i, i < N -> reads zero d w_ [i] (w i)) /\
      (forall a, a < A -> reads zero d E_ [a] (rnd 0 (lit 0) (lit 2) [a; a])) /\
      (forall i a, i < N -> a < A -> reads zero d G1_ [i; a] (rnd (1 + i) (opp (s i)) (s i) [a; a])) /\
      (forall m n idx, In m [G2_; G3_; G4_] -> mode_axes m = Some n -> inb (repeat N n ++ [A])%list idx -> reads zero d m idx zero).
  Proof.
    assert (RA := randint_range 0 2 10 ltac:(lia)). assert (RN := randint_range 1 2 20 ltac:(lia)).
    exists (Z.to_nat (randint 0 2 10)), (Z.to_nat (randint 1 2 20)).
    set (p := {| g_freq := (lit (2 # 100), lit (4 # 100)); g_energy := (lit 0, lit 2); g_linear := runif 3 (lit (2 # 100)) (lit (6 # 100));
         g_diagonal := true; g_states := randint 0 2 10; g_modes := randint 1 2 20 |}).
    destruct (C09_diagonal zero add opp div isz vint close rnd linspace add_zero_r add_zero_l p (Z.to_nat (randint 0 2 10)) (Z.to_nat (randint 1 2 20)) eq_refl)
      as (d & E & D & K & _ & Va & W & EE & G & H); [cbn; lia|cbn; lia|].
    exists d. split; [lia|]. split; [lia|]. split; [lia|]. split; [lia|]. split; [unfold create_random_diagonal_model; rewrite random_parameters; exact E|].
    split; [exact D|]. split; [exact K|]. split; [exact Va|]. cbv beta zeta. split; [exact W|]. split; [exact EE|]. split; [exact G|exact H].
  Qed.

  (** It can be saved anywhere, and a file with the same numbers is read back. *)
  Theorem C105_saved rnd (f : fs V) path d : isz zero = true ->
    create_random_model zero add opp div isz vint close linspace lit randint runif rnd = Ok d ->
    exists f' d', save isz vint Coupled f path d = (f', Ok tt) /\ (forall q, q <> path -> f' q = f q) /\
      load_new zero vint Coupled f' path = Ok d' /\ valid vint Coupled (randint 0 2 10) (randint 1 2 20) d' /\ same_numbers zero isz d d'.
  Proof.
    intros Z0 E. destruct (C105_random rnd) as (A & N & d0 & _ & _ & EA & EN & E0 & D & K & Va & _). rewrite E in E0. injection E0 as <-.
    rewrite EA, EN. destruct (C01_coupled_save_load V zero isz vint f path d (Z.of_nat A) (Z.of_nat N) D K (ser _ _ _ _ D K Va) Va) as (f' & d' & S & O & L & D' & Va' & K' & R); [left; lia|].
    exists f', d'. split; [exact S|]. split; [exact O|]. split; [exact L|]. split; [exact Va'|].
    apply (C01_same_numbers V zero isz vint (Z.of_nat A) (Z.of_nat N)); assumption.
  Qed.
End C105.
Print Assumptions C105_parameters.
Print Assumptions C105_other_entries.
Print Assumptions C105_scaling_refuted.
Print Assumptions C105_types.
Print Assumptions C105_numbers.
Print Assumptions C105_random.
Print Assumptions C105_random_diagonal.
Print Assumptions C105_saved.
Print Assumptions C105_input.
Print Assumptions C105_input_refused.
Print Assumptions C105_script.

(** numbers in hundredths; the first dice show 2 and 3 *)
Definition ex_lit (q : Q) : Z := Qfloor (q * 100).
Definition ex_int (k : nat) (lo hi : Z) : Z := Z.min hi (lo + Z.of_nat k).
Definition ex_unif (k : nat) (lo hi : Z) : Z := hi.
Example C105_example :
  (forall k lo hi, (lo <= hi)%Z -> (lo <= ex_int k lo hi <= hi)%Z) /\
  (do d <- create_random_model 0%Z Z.add Z.opp Z.div z_isz z_int Z.eqb ex_lin ex_lit ex_int ex_unif ex_rnd; Ok (mget d (KV N_), mget d (KV A_), mget d (KV E_), mget d (KV w_), mget d (KV G1_)))
  = Ok (Some (PInt 3), Some (PInt 2), Some (PArr (mkArr [2; 2] [0; 2; 2; 3]%Z)), Some (PArr (mkArr [3] [2; 3; 4]%Z)),
        Some (PArr (mkArr [3; 2; 2] [-2; 0; 0; 1; 0; 2; 2; 3; 2; 4; 4; 5]%Z))) /\
  (do d <- create_random_diagonal_model 0%Z Z.add Z.opp Z.div z_isz z_int Z.eqb ex_lin ex_lit ex_int ex_unif ex_rnd; Ok (mget d (KV E_), mget d (KV w_), mget d (KV G1_)))
  = Ok (Some (PArr (mkArr [2] [0; 3]%Z)), Some (PArr (mkArr [3] [2; 3; 4]%Z)), Some (PArr (mkArr [3; 2] [-2; 1; 0; 3; 2; 5]%Z))) /\
  (do d <- generate_data 0%Z Z.add Z.opp Z.div z_isz z_int Z.eqb ex_lin ex_lit ex_rnd (Some [("nonadiabatic", GBool false); ("numStates", GInt 2); ("numModes", GInt 1); ("linear_scaling", GInt 1)]); Ok (mget d (KV E_), mget d (KV w_), mget d (KV G1_)))
  = Ok (Some (PArr (mkArr [2; 2] [0; 2; 2; 3]%Z)), Some (PArr (mkArr [1] [2]%Z)), Some (PArr (mkArr [1; 2; 2] [-49; -47; -47; -46]%Z))) /\
  generate_data 0%Z Z.add Z.opp Z.div z_isz z_int Z.eqb ex_lin ex_lit ex_rnd (Some [("numStates", GNum 2%Z)]) = Raise TypeError.
Proof. split; [unfold ex_int; intros; lia|]. vm_compute. repeat split. Qed.

Example C105_example_script :
  system "4x6" 4 6 (14 # 100) (45 # 100) (103 # 10) (109 # 10) /\ ends_with_slash "/home/u/artificial_systems" = false /\
  (exists f', regenerate 0%Z Z.add Z.opp Z.div z_isz z_int Z.eqb ex_lin ex_lit (fun _ => ex_rnd) "/home/u/artificial_systems" no_files = (f', Ok tt)) /\
  forall name, name = "2x2" -> generate_input_file 0%Z Z.add Z.opp Z.div z_isz z_int Z.eqb ex_lin ex_lit ex_rnd "/home/u/artificial_systems" no_files name = (no_files, Raise KeyError).
Proof.
  split; [left; auto 10|]. split; [reflexivity|]. split.
  - destruct (C105_script 0%Z Z.add Z.opp Z.div z_isz z_int Z.eqb ex_lin ex_lit Z.add_0_r Z.add_0_l Z.eqb_refl (fun _ => ex_rnd) "/home/u/artificial_systems" no_files eq_refl ltac:(discriminate) eq_refl) as (f' & E & _).
    exists f'. exact E.
  - intros name ->. apply C105_input_refused; discriminate.
Qed.
