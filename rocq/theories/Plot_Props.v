(** C91: the arrays behind the plots *)
From Coq Require Import QArith Sorting.Sorted Lia.
From Verif Require Import Common Common_Proofs PyStr_Model PyStr_Proofs FileName_Model FileName_Proofs FileStruct_Model FileStruct_Proofs Json_Model Analysis_Model Analysis_Proofs Plot_Spec Plot_Model Plot_Proofs Plot2_Proofs Plot3_Proofs.
Local Open Scope string_scope.
Local Open Scope list_scope.
Local Open Scope nat_scope.

(** C91: the files looked for are called P*_T*_X*_thermo *)
Theorem C91_listing dir names p :
  In p (retrive_jackknife_file_list dir names) <->
  exists a b c, In ("P" ++ a ++ "_T" ++ b ++ "_X" ++ c ++ "_thermo")%string names /\ p = (dir ++ "P" ++ a ++ "_T" ++ b ++ "_X" ++ c ++ "_thermo")%string.
Proof.
  assert (G : forall s, glob_parts ["P"; "_T"; "_X"; "_thermo"] s = true <-> exists a b c, s = ("P" ++ a ++ "_T" ++ b ++ "_X" ++ c ++ "_thermo")%string).
  { intros s. rewrite glob_more. split.
    - intros (a & y & -> & G). apply glob_more in G. destruct G as (b & y' & -> & G). apply glob_more in G. destruct G as (c & y'' & -> & G). apply glob_one in G. subst. exists a, b, c. reflexivity.
    - intros (a & b & c & ->). exists a, ("_T" ++ b ++ "_X" ++ c ++ "_thermo")%string. split; [reflexivity|]. apply glob_more. exists b, ("_X" ++ c ++ "_thermo")%string. split; [reflexivity|].
      apply glob_more. exists c, "_thermo". split; [reflexivity|]. apply glob_one. reflexivity. }
  unfold retrive_jackknife_file_list. rewrite in_map_iff. split.
  - intros (n & <- & I). apply filter_In in I. destruct I as [I H]. apply G in H. destruct H as (a & b & c & ->). exists a, b, c. split; [exact I|reflexivity].
  - intros (a & b & c & I & ->). eexists. split; [reflexivity|]. apply filter_In. split; [exact I|]. apply G. exists a, b, c. reflexivity.
Qed.
(** C91: the axes of the array are the strictly increasing lists of the values in the names of the files *)
Theorem C91_lists dir l : quiet_dir dir -> Forall entry_ok l ->
  exists p, generate_parameter_lists (map (entry_path dir) l) = Ok p /\
    increasing_Z (lst_P p) /\ increasing_Q (lst_T p) /\ increasing_Z (lst_X p) /\
    (forall P, In P (lst_P p) <-> exists T X, In (P, T, X) l) /\
    (forall q, In q (lst_T p) -> exists P T X, In (P, T, X) l /\ (q == hundredths T # 100)%Q) /\
    (forall P T X, In (P, T, X) l -> exists q, In q (lst_T p) /\ (q == hundredths T # 100)%Q) /\
    (forall X, In X (lst_X p) <-> exists P T, In (P, T, X) l).
Proof.
  intros D O. destruct (lists_ok dir l D O) as (p & E & SP & ST & SX & IP & T1 & T2 & IX). exists p. split; [exact E|].
  split; [apply sorted_increasing_Z; exact SP|]. split; [apply sorted_increasing_Q; exact ST|]. split; [apply sorted_increasing_Z; exact SX|].
  split; [|split; [|split]].
  - intros P. rewrite IP. split; [intros ([[P' T] X] & I & ->); eauto|intros (T & X & I); exists (P, T, X); auto].
  - intros q I. destruct (T1 q I) as ([[P T] X] & I' & Q'). exists P, T, X. auto.
  - intros P T X I. exact (T2 (P, T, X) I).
  - intros X. rewrite IX. split; [intros ([[P T] X'] & I & ->); eauto|intros (P & T & I); exists (P, T, X); auto].
Qed.

Section Values.
  Variable F : Type.
  Variable nan : F.
  Variable of_int : Z -> res F.
  Variable of_repr : string -> F.
  Variable of_text : string -> res F.
  Variable mul sub_ div : F -> F -> F.
  Variable hundred : F.
  Notation to_f64 := (to_f64 F nan of_int of_repr of_text).
  Notation loadable := (loadable F nan of_int of_repr of_text).
  Notation holds := (holds F nan of_int of_repr of_text).
  Notation load_pimc_data := (load_pimc_data F nan of_int of_repr of_text).
  Notation cell := (cell F).

  (** C91: values of a JSON text as numbers of the array *)
  Theorem C91_number v x :
    to_f64 v = Ok x <-> v = JNull /\ x = nan \/ v = JBool false /\ of_int 0 = Ok x \/ v = JBool true /\ of_int 1 = Ok x \/ (exists z, v = JInt z /\ of_int z = Ok x) \/
      (exists r, v = JFloat r /\ x = of_repr r) \/ (exists s, v = JStr s /\ of_text s = Ok x).
  Proof.
    split.
    - destruct v as [|[|]|z|r|s|a|o]; cbn; intros H; try discriminate; try (injection H as <-); eauto 9.
    - intros [[-> ->]|[[-> H]|[[-> H]|[(z & -> & H)|[(r & -> & ->)|(s & -> & H)]]]]]; cbn; auto.
  Qed.
  (** C91: with all the files there, the array holds the values of each file at its place, and nan elsewhere;
      [skip] tells the two versions of the loop apart *)
  Theorem C91_load skip fs dir l values :
    quiet_dir dir -> Forall entry_ok l -> distinct_entries l ->
    (forall x, In x l -> file_of fs dir x (values x) /\ loadable (values x)) ->
    exists p g, generate_parameter_lists (map (entry_path dir) l) = Ok p /\ load_pimc_data skip fs p (map (entry_path dir) l) = Ok g /\
      dimP F g = List.length (lst_P p) /\ dimT F g = List.length (lst_T p) /\ dimX F g = List.length (lst_X p) /\
      (forall x, In x l -> exists i j k, place p x i j k /\ holds (values x) (cell g i j k)) /\
      (forall i j k, (forall x, In x l -> ~ place p x i j k) -> forall n, cell g i j k n = nan).
  Proof.
    intros D O DI FL. destruct (lists_ok dir l D O) as (p & E & SP & ST & SX & IP & T1 & T2 & IX). exists p.
    pose proof (sorted_increasing_Z _ SP) as IP'. pose proof (sorted_increasing_Q _ ST) as IT'. pose proof (sorted_increasing_Z _ SX) as IX'.
    assert (NP : NoDup (lst_P p)).
    { apply NoDup_nth_error. intros i j L EQ. destruct (nth_error (lst_P p) i) as [z|] eqn:N; [|apply nth_error_Some in L; congruence]. exact (increasing_Z_one _ i j z IP' N (eq_sym EQ)). }
    assert (CX : forall x, In x l -> In (snd x) (lst_X p)) by (intros x I; apply IX; eauto).
    assert (CP : forall x, In x l -> In (fst (fst x)) (lst_P p)) by (intros x I; apply IP; eauto).
    destruct (load_ok F nan of_int of_repr of_text skip fs p dir D NP IT' IX' l values O DI T2 CX (fun x I => or_intror (CP x I)) (fun x I _ => FL x I)) as (g & EG & D1 & D2 & D3 & A & B).
    exists g. split; [exact E|]. split; [exact EG|]. repeat (split; [assumption|]). split; [|exact B].
    intros x I. pose proof (CP x I) as PP. pose proof (CX x I) as XX. destruct (T2 x I) as (q & TT & EQ).
    apply In_nth_error in PP, XX, TT. destruct PP as [i PP], XX as [k XX], TT as [j TT]. exists i, j, k. assert (PL : place p x i j k) by (split; [exact PP|split; [eauto|exact XX]]). split; [exact PL|]. exact (A x i j k I PL).
  Qed.
  (** C91: files with the same place do not exist, and different files have different places *)
  Theorem C91_places p x y i j k i' j' k' :
    increasing_Z (lst_P p) -> increasing_Q (lst_T p) -> increasing_Z (lst_X p) -> place p x i j k -> place p y i' j' k' ->
    ((i, j, k) = (i', j', k') <-> same_entry x y).
  Proof.
    intros IP IT IX PX PY. split.
    - intros E. injection E as <- <- <-. exact (place_same p x y i j k PX PY).
    - intros SE. apply (same_place p x y i j k SE) in PX. destruct PX as (P1 & (q & P2 & P3) & P4), PY as (Q1 & (q' & Q2 & Q3) & Q4).
      rewrite (increasing_Z_one _ _ _ _ IP P1 Q1), (increasing_Z_one _ _ _ _ IX P4 Q4), (increasing_Q_one _ _ _ _ _ IT P2 Q2); [reflexivity|rewrite P3, Q3; reflexivity].
  Qed.
  (** C91: if the list of beads has been restricted, the other files are not even opened *)
  Theorem C91_restricted fs dir l values p :
    quiet_dir dir -> Forall entry_ok l -> distinct_entries l ->
    NoDup (lst_P p) -> increasing_Q (lst_T p) -> increasing_Z (lst_X p) ->
    (forall P T X, In (P, T, X) l -> (exists q, In q (lst_T p) /\ (q == hundredths T # 100)%Q) /\ In X (lst_X p)) ->
    (forall P T X, In (P, T, X) l -> In P (lst_P p) -> file_of fs dir (P, T, X) (values (P, T, X)) /\ loadable (values (P, T, X))) ->
    exists g, load_pimc_data true fs p (map (entry_path dir) l) = Ok g /\
      (forall x i j k, In x l -> place p x i j k -> holds (values x) (cell g i j k)) /\
      (forall i j k, (forall x, In x l -> ~ place p x i j k) -> forall n, cell g i j k n = nan).
  Proof.
    intros D O DI NP IT IX C FL.
    destruct (load_ok F nan of_int of_repr of_text true fs p dir D NP IT IX l values O DI) as (g & EG & _ & _ & _ & A & B).
    - intros [[P T] X] I. apply (C P T X I).
    - intros [[P T] X] I. apply (C P T X I).
    - intros x I. left. reflexivity.
    - intros [[P T] X] I I'. exact (FL P T X I I').
    - exists g. auto.
  Qed.
  (** C91: a file that is missing, not an object, has an unknown key or a value that is no number stops everything *)
  Theorem C91_load_only skip fs p paths g : load_pimc_data skip fs p paths = Ok g ->
    forall path, In path paths -> exists P, extract_bead path = Ok P /\
      (skip = true /\ ~ In P (lst_P p) \/ exists text kvs, fs path = Some text /\ loads text = Ok (JObj kvs) /\ loadable kvs).
  Proof. intros H. exact (load_inv F nan of_int of_repr of_text skip fs p paths _ g H). Qed.

  (** the number a dictionary of analytical values has for a temperature *)
  Definition number (v : json) (x : F) : Prop :=
    v = JBool false /\ of_int 0 = Ok x \/ v = JBool true /\ of_int 1 = Ok x \/ (exists z, v = JInt z /\ of_int z = Ok x) \/ (exists r, v = JFloat r /\ x = of_repr r).
  Definition known (d : list (string * json)) (T : Q) (key : string) (x : F) : Prop :=
    exists kvs v, dget String.eqb d (fmt2 T) = Some (JObj kvs) /\ dget String.eqb kvs key = Some v /\ number v x.
  Lemma known_value d T key x : known d T key x -> value_at F of_int of_repr d T key = Ok x.
  Proof.
    intros (kvs & v & A & B & N). unfold value_at. rewrite A. cbn [sub]. rewrite B. cbn [bind].
    destruct N as [[-> H]|[[-> H]|[(z & -> & H)|(r & -> & ->)]]]; cbn; auto.
  Qed.
  (** C91: the partition functions become percentages of the reference, the errors are scaled with them, the rest stays *)
  Theorem C91_percent p rho orig zr zc g :
    increasing_Q (lst_T p) ->
    (forall T, In T (lst_T p) -> known rho T "Z_sampling" (zr T) /\ known orig T "Z_coupled" (zc T)) ->
    exists g', prepare_single F of_int of_repr mul sub_ div hundred p rho orig g = Ok g' /\ same_dims F g g' /\
      (forall i j k T, nth_error (lst_T p) j = Some T ->
        cell g' i j k "Z" = div (mul (sub_ (mul (cell g i j k "Z") (zr T)) (zc T)) hundred) (zc T) /\
        cell g' i j k "Z error" = div (mul (mul (cell g i j k "Z error") (zr T)) hundred) (zc T)) /\
      (forall i j k n, n <> "Z" -> n <> "Z error" -> cell g' i j k n = cell g i j k n).
  Proof.
    intros IT K. destruct (single_ok F of_int of_repr mul sub_ div hundred p rho orig zr zc g IT) as (g' & E & D & C); try (intros T I; apply known_value; apply (K T I)).
    exists g'. split; [exact E|]. split; [exact D|]. split.
    - intros i j k T N. rewrite !C, N. split; reflexivity.
    - intros i j k n N1 N2. rewrite C. apply String.eqb_neq in N1, N2. unfold percent. rewrite N1, N2. cbn [orb]. destruct (nth_error (lst_T p) j); reflexivity.
  Qed.
  (** C91: the same for several sets of results, each with its own reference *)
  Theorem C91_percent_several (l : list (loaded F)) (zr zc : nat -> Q -> F) :
    (forall m p rho orig g, nth_error l m = Some (p, rho, orig, g) -> increasing_Q (lst_T p) /\ increasing_Z (lst_X p) /\
       forall T, In T (lst_T p) -> known rho T "Z_sampling" (zr m T) /\ known orig T "Z_coupled" (zc m T)) ->
    exists gs, prepare_several F of_int of_repr mul sub_ div hundred l = Ok gs /\ List.length gs = List.length l /\
    forall m p rho orig g, nth_error l m = Some (p, rho, orig, g) -> exists g', nth_error gs m = Some g' /\ same_dims F g g' /\
      (forall i j k T X, nth_error (lst_T p) j = Some T -> nth_error (lst_X p) k = Some X ->
        cell g' i j k "Z" = div (mul (sub_ (mul (cell g i j k "Z") (zr m T)) (zc m T)) hundred) (zc m T) /\
        cell g' i j k "Z error" = div (mul (mul (cell g i j k "Z error") (zr m T)) hundred) (zc m T)) /\
      (forall i j k n, n <> "Z" -> n <> "Z error" -> cell g' i j k n = cell g i j k n).
  Proof.
    intros K. unfold prepare_several.
    assert (A : forall r d, l = d ++ r -> exists r', map_res (fun x : loaded F => let '(p, rho, orig, g) := x in do g <- scale_by_rho F of_int of_repr mul p rho g; Ok (p, rho, orig, g)) r = Ok r' /\
      exists gs, map_res (fun x : loaded F => let '(p, rho, orig, g) := x in percent_by_X F of_int of_repr mul sub_ div hundred p orig g) r' = Ok gs /\ List.length gs = List.length r /\
      forall m p rho orig g, nth_error r m = Some (p, rho, orig, g) -> exists g', nth_error gs m = Some g' /\ same_dims F g g' /\
      (forall i j k T X, nth_error (lst_T p) j = Some T -> nth_error (lst_X p) k = Some X ->
        cell g' i j k "Z" = div (mul (sub_ (mul (cell g i j k "Z") (zr (List.length d + m) T)) (zc (List.length d + m) T)) hundred) (zc (List.length d + m) T) /\
        cell g' i j k "Z error" = div (mul (mul (cell g i j k "Z error") (zr (List.length d + m) T)) hundred) (zc (List.length d + m) T)) /\
      (forall i j k n, n <> "Z" -> n <> "Z error" -> cell g' i j k n = cell g i j k n)).
    { induction r as [|[[[p rho] orig] g] r IH]; intros d E.
      - exists []. split; [reflexivity|]. exists []. split; [reflexivity|]. split; [reflexivity|]. intros m p rho orig g N. destruct m; discriminate.
      - assert (N : nth_error l (List.length d) = Some (p, rho, orig, g)) by (rewrite E, nth_error_app2, Nat.sub_diag; auto).
        destruct (K _ _ _ _ _ N) as (IT & IX & V). destruct (IH (d ++ [(p, rho, orig, g)]) ltac:(rewrite E, <- app_assoc; reflexivity)) as (r' & E1 & gs & E2 & L & H).
        destruct (scale_ok F of_int of_repr mul p rho (zr (List.length d)) g IT (fun T I => known_value _ _ _ _ (proj1 (V T I)))) as (g1 & S1 & (D1 & D2 & D3) & C1).
        destruct (by_X_ok F of_int of_repr mul sub_ div hundred p orig (zc (List.length d)) g1 IT IX (fun T I => known_value _ _ _ _ (proj2 (V T I)))) as (g2 & S2 & (D4 & D5 & D6) & C2).
        exists ((p, rho, orig, g1) :: r'). cbn [map_res]. rewrite S1, E1. cbn [bind]. split; [reflexivity|]. exists (g2 :: gs). cbn [map_res]. rewrite S2, E2. split; [reflexivity|]. split; [cbn; congruence|].
        intros m p' rho' orig' g' NM. destruct m as [|m].
        + injection NM as <- <- <- <-. exists g2. split; [reflexivity|]. split; [repeat split; congruence|]. rewrite Nat.add_0_r. split.
          * intros i j k T X NT NX. rewrite !C2, NT, NX, !C1, NT. split; reflexivity.
          * intros i j k n N1 N2. rewrite C2, C1. apply String.eqb_neq in N1, N2. unfold percent. rewrite N1, N2. cbn [orb]. destruct (nth_error (lst_T p) j), (nth_error (lst_X p) k); reflexivity.
        + cbn in NM. destruct (H m p' rho' orig' g' NM) as (g3 & N3 & D & A & B). exists g3. split; [exact N3|]. split; [exact D|]. rewrite app_length in A. cbn in A. replace (List.length d + S m) with (List.length d + 1 + m) by lia. split; assumption. }
    destruct (A l [] eq_refl) as (r' & -> & gs & E & L & H). cbn [bind]. exists gs. split; [exact E|]. split; [exact L|]. exact H.
  Qed.
End Values.
(** C91: the scale of the beads is beta / P *)
Theorem C91_tau F of_int div beta p T inv :
  (forall P, In P (lst_P p) -> of_int P = Ok (inv P)) -> generate_tau_values F of_int div beta p T = Ok (map (fun P => div (beta T) (inv P)) (lst_P p)).
Proof.
  intros H. unfold generate_tau_values. induction (lst_P p) as [|P ps IH]; [reflexivity|]. cbn [map_res map]. rewrite (H P (or_introl eq_refl)). cbn [bind]. rewrite IH by (intros P' I; apply H; right; exact I). reflexivity.
Qed.

(** ** examples *)
Definition ex_dir := "/d/".
Lemma ex_quiet : quiet_dir ex_dir.
Proof.
  assert (N : forall c a b, list_ascii_of_string ex_dir = list_ascii_of_string (a ++ String "_" (String c b)) -> False).
  { intros c a b H. assert (LA : forall u w, list_ascii_of_string (u ++ w) = list_ascii_of_string u ++ list_ascii_of_string w) by (induction u; intros; cbn; congruence). rewrite LA in H. assert (I : In "_"%char (list_ascii_of_string ex_dir)) by (rewrite H; apply in_or_app; right; left; reflexivity). cbn in I. intuition discriminate. }
  split; [cbn; intuition discriminate|]. split; intros a b H; (eapply N; rewrite H; reflexivity).
Qed.
Definition ex_l : list entry := [(12%Z, 300%Q, 10%Z); (8%Z, 300%Q, 10%Z); (12%Z, (501 # 2)%Q, 10%Z)].
Definition ex_file (P : Z) : string := ("{""Z"": " ++ dec P ++ ", ""hash_vib"": ""a"", ""E error"": null}")%string.
Definition ex_values (x : entry) : list (string * json) := [("Z", JInt (fst (fst x))); ("hash_vib", JStr "a"); ("E error", JNull)].
Definition ex_fs : fsys string := fun path =>
  if String.eqb path "/d/P12_T300.00_X10_thermo" then Some (ex_file 12)
  else if String.eqb path "/d/P8_T300.00_X10_thermo" then Some (ex_file 8)
  else if String.eqb path "/d/P12_T250.50_X10_thermo" then Some (ex_file 12) else None.
Example C91_listing_ex : retrive_jackknife_file_list "/d/" ["P12_T300.00_X10_thermo"; "P12_T300.00_J1_data_points.npz"; "P8_T300.00_X10_thermo"] = ["/d/P12_T300.00_X10_thermo"; "/d/P8_T300.00_X10_thermo"].
Proof. reflexivity. Qed.
Example C91_lists_ex : quiet_dir ex_dir /\ Forall entry_ok ex_l /\
  generate_parameter_lists (map (entry_path ex_dir) ex_l) = Ok (mkParams [8; 12]%Z [25050 # 100; 30000 # 100]%Q [10]%Z).
Proof. split; [exact ex_quiet|]. split; [repeat constructor; cbn; lia|vm_compute; reflexivity]. Qed.
Lemma ex_distinct : distinct_entries ex_l.
Proof.
  intros i j x y. destruct i as [|[|[|i]]], j as [|[|[|j]]]; intros A B (E1 & E2 & E3); auto; cbn in A, B;
    try (injection A as <-); try (injection B as <-); cbn in E1, E2; try discriminate; try (destruct i; discriminate); destruct j; discriminate.
Qed.
Example C91_load_ex : quiet_dir ex_dir /\ Forall entry_ok ex_l /\ distinct_entries ex_l /\
  (forall x, In x ex_l -> file_of ex_fs ex_dir x (ex_values x) /\ loadable Z (-1)%Z (fun z => Ok z) (fun _ => 0%Z) (fun _ => Raise ValueError) (ex_values x)).
Proof.
  split; [exact ex_quiet|]. split; [repeat constructor; cbn; lia|]. split; [exact ex_distinct|].
  intros x I. split.
  - destruct I as [<-|[<-|[<-|[]]]]; eexists; (split; [reflexivity|vm_compute; reflexivity]).
  - split.
    + cbn. repeat constructor; cbn; intuition discriminate.
    + intros k v J. cbn in J. destruct J as [J|[J|[J|[]]]]; injection J as <- <-.
      * right. split; [cbn; auto|]. cbn. eauto.
      * left. left. reflexivity.
      * right. split; [cbn; auto 20|]. cbn. eauto.
Qed.
(** the numbers of the array of the example: 12 beads at 300 K *)
Example C91_load_numbers :
  match load_pimc_data Z (-1)%Z (fun z => Ok z) (fun _ => 0%Z) (fun _ => Raise ValueError) false ex_fs (mkParams [8; 12]%Z [25050 # 100; 30000 # 100]%Q [10]%Z) (map (entry_path ex_dir) ex_l) with
  | Ok g => map (fun i => map (fun j => (cell Z g i j 0 "Z", cell Z g i j 0 "E")) [0; 1]) [0; 1] = [[((-1)%Z, (-1)%Z); (8%Z, (-1)%Z)]; [(12%Z, (-1)%Z); (12%Z, (-1)%Z)]]
  | Raise _ => False
  end.
Proof. vm_compute. reflexivity. Qed.
(** without the 8 beads *)
Example C91_restricted_ex :
  let p := mkParams [12]%Z [25050 # 100; 30000 # 100]%Q [10]%Z in
  NoDup (lst_P p) /\ increasing_Q (lst_T p) /\ increasing_Z (lst_X p) /\
  load_pimc_data Z (-1)%Z (fun z => Ok z) (fun _ => 0%Z) (fun _ => Raise ValueError) false ex_fs p (map (entry_path ex_dir) ex_l) = Raise ValueError /\
  exists g, load_pimc_data Z (-1)%Z (fun z => Ok z) (fun _ => 0%Z) (fun _ => Raise ValueError) true ex_fs p (map (entry_path ex_dir) ex_l) = Ok g.
Proof.
  split; [repeat constructor; intros []|]. split.
  - intros i j x y A B L. destruct i as [|[|i]], j as [|[|j]]; cbn in A, B; try lia; try (destruct j; discriminate); try (destruct i; discriminate). injection A as <-. injection B as <-. reflexivity.
  - split; [|split; [vm_compute; reflexivity|eexists; vm_compute; reflexivity]]. intros i j x y A B L. destruct i as [|i], j as [|j]; cbn in A, B; try lia; try (destruct j; discriminate); destruct i; discriminate.
Qed.
Definition ex_rho : list (string * json) := [("250.50", JObj [("Z_sampling", JInt 2)]); ("300.00", JObj [("Z_sampling", JInt 3)])].
Definition ex_orig : list (string * json) := [("250.50", JObj [("Z_coupled", JInt 8)]); ("300.00", JObj [("Z_coupled", JInt 12)])].
(** 8 beads at 300 K: 8 * 3 is 100 percent more than 12 *)
Example C91_percent_ex :
  let p := mkParams [8; 12]%Z [25050 # 100; 30000 # 100]%Q [10]%Z in
  let g := mkGrid Z 2 2 1 (fun i j k n => match i with O => 8%Z | _ => 12%Z end) in
  let zr T := (if Qeq_bool T (30000 # 100) then 3 else 2)%Z in let zc T := (if Qeq_bool T (30000 # 100) then 12 else 8)%Z in
  (forall T, In T (lst_T p) -> known Z (fun z => Ok z) (fun _ => 0%Z) ex_rho T "Z_sampling" (zr T) /\ known Z (fun z => Ok z) (fun _ => 0%Z) ex_orig T "Z_coupled" (zc T)) /\
  match prepare_single Z (fun z => Ok z) (fun _ => 0%Z) Z.mul Z.sub Z.div 100%Z p ex_rho ex_orig g with
  | Ok g' => map (fun i => map (fun j => (cell Z g' i j 0 "Z", cell Z g' i j 0 "Z error", cell Z g' i j 0 "E")) [0; 1]) [0; 1] = [[(100, 200, 8); (100, 200, 8)]; [(200, 300, 12); (200, 300, 12)]]%Z
  | Raise _ => False
  end.
Proof.
  cbv zeta. split; [|vm_compute; reflexivity]. intros T [<-|[<-|[]]]; split; eexists; eexists; (split; [vm_compute; reflexivity|split; [reflexivity|right; right; left; eexists; split; reflexivity]]).
Qed.
(** two systems, each with its own references *)
Example C91_several_ex :
  let p := mkParams [8]%Z [30000 # 100]%Q [10]%Z in
  let g z := mkGrid Z 1 1 1 (fun i j k n => z) in
  match prepare_several Z (fun z => Ok z) (fun _ => 0%Z) Z.mul Z.sub Z.div 100%Z [(p, ex_rho, ex_orig, g 8%Z); (p, [("300.00", JObj [("Z_sampling", JInt 1)])], ex_orig, g 6%Z)] with
  | Ok gs => map (fun g' => (cell Z g' 0 0 0 "Z", cell Z g' 0 0 0 "Z error", cell Z g' 0 0 0 "E")) gs = [(100, 200, 8); (-50, 50, 6)]%Z
  | Raise _ => False
  end.
Proof. vm_compute. reflexivity. Qed.
Example C91_tau_ex : generate_tau_values Z (fun z => Ok z) Z.div (fun _ => 100%Z) (mkParams [5; 10]%Z [] []) 300%Q = Ok [20; 10]%Z.
Proof. reflexivity. Qed.

Print Assumptions C91_listing.
Print Assumptions C91_lists.
Print Assumptions C91_number.
Print Assumptions C91_load.
Print Assumptions C91_places.
Print Assumptions C91_restricted.
Print Assumptions C91_load_only.
Print Assumptions C91_percent.
Print Assumptions C91_percent_several.
Print Assumptions C91_tau.
