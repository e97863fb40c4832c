(** C104: the pictures of the results *)
From Coq Require Import QArith Lia.
From Verif Require Import Common Common_Proofs PyStr_Model FileName_Model FileName_Proofs Json_Model FileStruct_Model Results_Model Analysis_Model Plot_Spec Plot_Model Plot_Proofs Grid_Proofs Chart_Model Chart_Proofs.
Local Open Scope string_scope.
Local Open Scope list_scope.
Local Open Scope nat_scope.

Section Init.
  Variable H : string -> string.
  Variable fs : fsys string.
  Variable listing : string -> list string.
  Variable hashes : hashes_of.
  Notation init_single := (init_single H fs listing hashes).
  Notation init_pair := (init_pair H fs listing hashes).
  Notation init_rectangle := (init_rectangle H fs listing hashes).

  (** what an object knows of [f]: the results whose two hashes are those of the FileStructure, and their parameters *)
  Definition knows (f : fstruct) (x : prepared) : Prop :=
    exists hv hr, generate_model_hashes H fs false f = (fst (fst x), Ok tt) /\ hash_vib (fst (fst x)) = Some hv /\ hash_rho (fst (fst x)) = Some hr /\
    (forall path, In path (snd (fst x)) <-> In path (retrive_jackknife_file_list (path_rho_results (fst (fst x))) (listing (path_rho_results (fst (fst x))))) /\ hashes path = Some (Some hv, Some hr)) /\
    generate_parameter_lists (snd (fst x)) = Ok (snd x).
  Lemma virtual_knows a l : virtual_init H fs listing hashes a = Ok l -> Forall2 knows (match a with OneFS f => [f] | ListFS l => l end) l.
  Proof.
    unfold virtual_init. set (l0 := match a with OneFS f => [f] | ListFS l1 => l1 end). clearbody l0. intros E.
    destruct (map_res (with_hashes H fs) l0) as [fl|e] eqn:E1; [|discriminate]. cbn [bind] in E.
    destruct (map_res (file_list listing hashes) fl) as [jl|e] eqn:E2; [|discriminate]. cbn [bind] in E.
    apply map_res_spec in E1, E2, E. revert jl l E2 E. induction E1 as [|f f' l0 fl A E1 IH]; intros jl l E2 E.
    - inversion E2; subst. inversion E; subst. constructor.
    - inversion E2 as [|? y ? jl' B E2' EQ1 EQ2]; subst. inversion E as [|? z ? l' C E' EQ1 EQ2]; subst. constructor; [|exact (IH jl' l' E2' E')].
      unfold with_hashes in A. destruct (generate_model_hashes H fs false f) as [f1 [[]|e]] eqn:G; [|discriminate]. injection A as ->.
      unfold file_list in B. destruct (hash_vib f') as [hv|] eqn:HV; [|discriminate]. destruct (hash_rho f') as [hr|] eqn:HR; [|discriminate].
      destruct (prune _ _ _ _) as [out|e] eqn:PR; [|discriminate]. cbn [bind] in B. injection B as <-. cbn [fst snd] in C.
      destruct (generate_parameter_lists out) as [p|e] eqn:GP; [|discriminate]. cbn [bind] in C. injection C as <-. exists hv, hr. cbn [fst snd].
      split; [exact G|]. split; [exact HV|]. split; [exact HR|]. split; [exact (prune_in _ _ _ _ _ PR)|exact GP].
  Qed.
  (** C104: the classes for one set of results take one FileStructure, the class for a comparison takes a list of two, the last
      one a list of at least two; the files of each are those whose hashes are the ones of its models, and a comparison
      needs a file *)
  Theorem C104_init a l :
    (init_single a = Ok l -> exists f x, a = OneFS f /\ l = [x] /\ knows f x) /\
    (init_pair a = Ok l -> exists f1 f2 x1 x2, a = ListFS [f1; f2] /\ l = [x1; x2] /\ knows f1 x1 /\ knows f2 x2 /\ (snd (fst x1) <> [] \/ snd (fst x2) <> [])) /\
    (init_rectangle a = Ok l -> exists fl, a = ListFS fl /\ 2 <= List.length fl /\ Forall2 knows fl l /\ exists x, In x l /\ snd (fst x) <> []).
  Proof.
    assert (M : init_multiple H fs listing hashes a = Ok l -> Forall2 knows (match a with OneFS f => [f] | ListFS l => l end) l /\ exists x, In x l /\ snd (fst x) <> []).
    { unfold init_multiple. intros E. destruct (virtual_init H fs listing hashes a) as [l'|e] eqn:V; [|discriminate]. cbn [bind] in E.
      destruct (existsb _ l') eqn:X; [|discriminate]. injection E as ->. split; [exact (virtual_knows a l V)|]. apply existsb_exists in X. destruct X as (x & I & NE).
      exists x. split; [exact I|]. intros Z0. rewrite Z0 in NE. discriminate. }
    split; [|split].
    - intros E. destruct a as [f|fl]; [|discriminate]. apply virtual_knows in E. inversion E as [|? x ? l' K E' A1 A2]; subst. inversion E'; subst. exists f, x. auto.
    - unfold init_pair. intros E. destruct a as [f|fl]; [discriminate|]. destruct (Nat.eqb_spec (List.length fl) 2) as [L|]; [|discriminate]. apply M in E. destruct E as [E (x & I & NE)].
      destruct fl as [|f1 [|f2 [|]]]; try discriminate. inversion E as [|? x1 ? l' K1 E' A1 A2]; subst. inversion E' as [|? x2 ? l'' K2 E'' A1 A2]; subst. inversion E''; subst.
      exists f1, f2, x1, x2. do 4 (split; [auto|]). destruct I as [<-|[<-|[]]]; auto.
    - unfold init_rectangle. intros E. destruct a as [f|fl]; [discriminate|]. destruct (Nat.ltb_spec 1 (List.length fl)) as [L|]; [|discriminate]. apply M in E. destruct E as [E X]. exists fl. auto.
  Qed.
  (** C104: any other argument is refused *)
  Theorem C104_init_refused f fl :
    init_single (ListFS fl) = Raise AssertionError /\ init_pair (OneFS f) = Raise TypeError /\ init_rectangle (OneFS f) = Raise TypeError /\
    (List.length fl <> 2 -> init_pair (ListFS fl) = Raise AssertionError) /\ (List.length fl < 2 -> init_rectangle (ListFS fl) = Raise AssertionError).
  Proof.
    do 3 (split; [reflexivity|]). split; intros L.
    - unfold init_pair. apply Nat.eqb_neq in L. rewrite L. reflexivity.
    - unfold init_rectangle. destruct (Nat.ltb_spec 1 (List.length fl)); [lia|reflexivity].
  Qed.
End Init.

Section Draw.
  Variable F : Type.
  Variable zero : F.
  Variable of_int : Z -> res F.
  Variable of_repr : string -> F.
  Variable div : F -> F -> F.
  Variable beta : Q -> F.
  Variable sci : Z -> string.
  Variable dims : fstruct -> res (Z * Z).
  Notation fits := (fits F).
  Notation along := (along F).
  Notation plot_Z_test := (plot_Z_test F of_int div beta sci).
  Notation plot_original := (plot_original F zero of_int of_repr div beta sci dims).
  Notation plot_pair := (plot_pair F zero of_int of_repr div beta sci dims).
  Notation plot_sos := (plot_sos F of_int div beta sci dims).

  (** one curve for each number of samples: the values of the field along the beads against beta/P *)
  Definition shows (p : params) (g : grid F) (num : Z -> F) (T : Q) (key : string) (ms : list (mark F)) : Prop :=
    List.length ms = List.length (lst_X p) /\
    forall k X, nth_error (lst_X p) k = Some X ->
      nth_error ms k = Some (Curve F (map (fun P => div (beta T) (num P)) (lst_P p)) (along p g 0 k key) (along p g 0 k (key ++ " error")) Circle (key ++ " (T=" ++ fmt2 T ++ "K) (X=" ++ sci X ++ ")")).
  Lemma curves_show p g num T key : shows p g num T key (curves F sci p g key T 0 (map (fun P => div (beta T) (num P)) (lst_P p)) 0 (lst_X p)).
  Proof. split; [apply curves_length|]. intros k X N. rewrite (curves_nth F sci p g key T 0 _ (lst_X p) 0 k X N). reflexivity. Qed.

  (** C104: with results of exactly one temperature, the pictures of Z and of the energy are saved, that of the heat capacity never is *)
  Theorem C104_test_one f p g num T :
    increasing_Z (lst_X p) -> fits p g -> lst_T p = [T] -> (forall P, In P (lst_P p) -> of_int P = Ok (num P)) ->
    exists z e, plot_Z_test (Ok tt) f p g = ([z; e], Raise AttributeError) /\
      ch_path F z = join (path_rho_plots f) ("Z_D" ++ dec (id_data f) ++ "_R" ++ dec (id_rho f) ++ ".pdf") /\ ch_title F z = "Z MC" /\ shows p g num T "Z" (ch_marks F z) /\
      ch_path F e = join (path_rho_plots f) ("E_D" ++ dec (id_data f) ++ "_R" ++ dec (id_rho f) ++ ".pdf") /\ ch_title F e = "Energy" /\ shows p g num T "E" (ch_marks F e).
  Proof.
    intros IX FI ET N. pose proof (tau_ok F of_int div beta p num T N) as TA.
    assert (LT : List.length (map (fun P => div (beta T) (num P)) (lst_P p)) = List.length (lst_P p)) by apply map_length.
    pose proof (test_loop_one F sci (tau_of F of_int div beta p) p g "Z" T _ IX FI ET TA LT) as LZ. pose proof (test_loop_one F sci (tau_of F of_int div beta p) p g "E" T _ IX FI ET TA LT) as LE.
    assert (LC : for_res (test_turn F sci (fun _ => Raise AttributeError) p g "Cv") (lst_T p) [] = Raise AttributeError).
    { pose proof (single_increasing T) as S1. rewrite <- ET in S1. assert (N0 : nth_error (lst_T p) 0 = Some T) by (rewrite ET; reflexivity).
      rewrite ET. cbn [for_res]. unfold test_turn. rewrite (self_index p T S1 0 N0). reflexivity. }
    eexists. eexists. split; [|].
    - unfold Chart_Model.plot_Z_test, test_Z, test_E, test_Cv, plot_test. rewrite LZ, LE, LC. cbn [bind saved charts_then app fst snd]. reflexivity.
    - cbn [ch_path ch_title ch_marks]. do 2 (split; [reflexivity|]). split; [apply curves_show|]. do 2 (split; [reflexivity|]). apply curves_show.
  Qed.
  (** C104: that a picture can be drawn for more than one temperature is wrong: nothing is saved *)
  Theorem C104_temperatures_refuted f p g num :
    increasing_Z (lst_X p) -> increasing_Q (lst_T p) -> fits p g -> lst_X p <> [] -> 2 <= List.length (lst_T p) -> (forall P, In P (lst_P p) -> of_int P = Ok (num P)) ->
    plot_Z_test (Ok tt) f p g = ([], Raise TypeError) /\ forall percent orig, plot_original (Ok tt) percent f p orig g = ([], Raise TypeError).
  Proof.
    intros IX IT FI NX L N. destruct (lst_T p) as [|T [|T2 ts]] eqn:ET; cbn in L; [lia|lia|]. rewrite <- ET in IT.
    assert (N0 : nth_error (lst_T p) 0 = Some T) by (rewrite ET; reflexivity). assert (L0 : 0 < List.length (lst_T p)) by (rewrite ET; cbn; lia).
    pose proof (x_bare F sci p g "Z" T 0 (map (fun P => div (beta T) (num P)) (lst_P p)) FI L0 IX NX []) as XB. pose proof (many_bare p ltac:(rewrite ET; cbn; lia)) as MB.
    split.
    - assert (E : test_Z F of_int div beta sci f p g = ([], Raise TypeError)).
      { unfold test_Z, plot_test. rewrite ET. cbn [for_res]. unfold test_turn at 1. rewrite (self_index p T IT 0 N0). cbn [bind]. rewrite (tau_ok F of_int div beta p num T N). cbn [bind]. rewrite MB, XB. reflexivity. }
      unfold Chart_Model.plot_Z_test. rewrite E. reflexivity.
    - intros percent orig. unfold Chart_Model.plot_original, original_Z. rewrite ET. cbn [for_res]. unfold original_turn at 1. rewrite (self_index p T IT 0 N0). cbn [bind]. rewrite (tau_ok F of_int div beta p num T N). cbn [bind]. rewrite MB, XB. reflexivity.
  Qed.
  (** C104: without results the first class saves three empty pictures, the second fails *)
  Theorem C104_empty f p g : lst_T p = [] ->
    (exists z e c, plot_Z_test (Ok tt) f p g = ([z; e; c], Ok tt) /\ (ch_marks F z = [] /\ ch_marks F e = [] /\ ch_marks F c = []) /\
      (ch_path F z = join (path_rho_plots f) ("Z_D" ++ dec (id_data f) ++ "_R" ++ dec (id_rho f) ++ ".pdf") /\
       ch_path F e = join (path_rho_plots f) ("E_D" ++ dec (id_data f) ++ "_R" ++ dec (id_rho f) ++ ".pdf") /\
       ch_path F c = join (path_rho_plots f) ("Cv_D" ++ dec (id_data f) ++ "_R" ++ dec (id_rho f) ++ ".pdf")) /\
      ch_title F z = "Z MC" /\ ch_title F e = "Energy" /\ ch_title F c = "Cv") /\
    forall percent orig, plot_original (Ok tt) percent f p orig g = ([], Raise TypeError).
  Proof.
    intros ET. split.
    - do 3 eexists. split; [unfold Chart_Model.plot_Z_test, test_Z, test_E, test_Cv, plot_test; rewrite ET; cbn [for_res bind saved charts_then app fst snd]; reflexivity|]. cbn [ch_path ch_title ch_marks]. repeat split; reflexivity.
    - intros percent orig. unfold Chart_Model.plot_original, original_Z, axes_for. rewrite ET. reflexivity.
  Qed.
  (** C104: nothing is drawn if the LaTeX module can not be loaded *)
  Theorem C104_latex e f p orig g percent a b :
    plot_Z_test (Raise e) f p g = ([], Raise e) /\ plot_original (Raise e) percent f p orig g = ([], Raise e) /\ plot_pair (Raise e) percent a b = ([], Raise e) /\
    plot_sos (Raise e) percent a b = ([], Raise e) /\ plot_rectangle F (Raise e) = ([], Raise e) /\ plot_rectangle F (Ok tt) = ([], Ok tt).
  Proof. repeat split. Qed.

  (** the reference value of a temperature, or zero if percentages are shown *)
  Definition reference (percent : bool) (orig : list (string * json)) (T : Q) (y : F) : Prop :=
    exists kvs v, dget String.eqb orig (fmt2 T) = Some (JObj kvs) /\ dget String.eqb kvs "Z_coupled" = Some v /\ (if percent then y = zero else as_number F of_int of_repr v = Ok y).
  Definition heading (f : fstruct) (AN : Z * Z) : string :=
    ("$\tau$ convergence" ++ String "010"%char ("Data Set " ++ dec (id_data f) ++ String "010"%char (dec (fst AN) ++ " surfaces " ++ dec (snd AN) ++ " normal modes")))%string.
  (** C104: the results of one temperature beside the reference *)
  Theorem C104_original percent f p orig g num T y AN :
    increasing_Z (lst_X p) -> fits p g -> lst_T p = [T] -> (forall P, In P (lst_P p) -> of_int P = Ok (num P)) -> reference percent orig T y -> dims f = Ok AN ->
    exists c ms, plot_original (Ok tt) percent f p orig g = ([c], Ok tt) /\
      ch_path F c = join (path_rho_plots f) ("Z_orig_D" ++ dec (id_data f) ++ "_R" ++ dec (id_rho f) ++ ".pdf") /\ ch_title F c = heading f AN /\
      ch_ylabel F c = (if percent then "\% Difference    $\frac{Z_g}{Z_\varrho}$" else "$\frac{Z_g}{Z_\varrho}$") /\
      ch_marks F c = ms ++ [Level F y "Analytically derived Z from original model"] /\ shows p g num T "Z" ms.
  Proof.
    intros IX FI ET N RF DI. pose proof (tau_ok F of_int div beta p num T N) as TA. apply orig_level in RF.
    assert (LT : List.length (map (fun P => div (beta T) (num P)) (lst_P p)) = List.length (lst_P p)) by apply map_length.
    pose proof (single_increasing T) as S1. rewrite <- ET in S1. assert (N0 : nth_error (lst_T p) 0 = Some T) by (rewrite ET; reflexivity).
    assert (AX : axes_for p = Wrapped) by (unfold axes_for; rewrite ET; reflexivity).
    assert (LO : for_res (original_turn F zero of_int of_repr div beta sci percent p orig g) (lst_T p) [] =
                 Ok (curves F sci p g "Z" T 0 (map (fun P => div (beta T) (num P)) (lst_P p)) 0 (lst_X p) ++ [Level F y orig_text])).
    { rewrite ET. cbn [for_res]. unfold original_turn. rewrite (self_index p T S1 0 N0). cbn [bind]. rewrite TA. cbn [bind]. rewrite AX.
      rewrite (x_loop F sci p g "Z" T _ IX FI LT) with (pre := []) by (try reflexivity; rewrite ET; cbn; lia). cbn [bind app List.length]. rewrite RF. reflexivity. }
    eexists. eexists. split.
    - unfold Chart_Model.plot_original, original_Z. rewrite LO. cbn [bind]. rewrite AX. cbn [ax_item bind]. unfold title_of. rewrite DI. cbn [bind saved charts_then app fst snd]. reflexivity.
    - cbn [ch_path ch_title ch_ylabel ch_marks]. do 2 (split; [reflexivity|]). split; [destruct percent; reflexivity|]. split; [reflexivity|]. apply curves_show.
  Qed.
  (** C104: without a reference nothing is saved *)
  Theorem C104_no_reference percent f p orig g num T :
    increasing_Z (lst_X p) -> fits p g -> lst_T p = [T] -> (forall P, In P (lst_P p) -> of_int P = Ok (num P)) -> dget String.eqb orig (fmt2 T) = None ->
    plot_original (Ok tt) percent f p orig g = ([], Raise KeyError).
  Proof.
    intros IX FI ET N NO. pose proof (tau_ok F of_int div beta p num T N) as TA.
    assert (LT : List.length (map (fun P => div (beta T) (num P)) (lst_P p)) = List.length (lst_P p)) by apply map_length.
    pose proof (single_increasing T) as S1. rewrite <- ET in S1. assert (N0 : nth_error (lst_T p) 0 = Some T) by (rewrite ET; reflexivity).
    assert (AX : axes_for p = Wrapped) by (unfold axes_for; rewrite ET; reflexivity).
    unfold Chart_Model.plot_original, original_Z. rewrite ET. cbn [for_res]. unfold original_turn. rewrite (self_index p T S1 0 N0). cbn [bind]. rewrite TA. cbn [bind]. rewrite AX.
    rewrite (x_loop F sci p g "Z" T _ IX FI LT) with (pre := []) by (try reflexivity; rewrite ET; cbn; lia). cbn [bind app List.length]. unfold true_answer. rewrite NO. reflexivity.
  Qed.

  (** the texts for the numbers of the sampling models *)
  Definition pair_text (r : Z) (t : string) : Prop :=
    r = 0%Z /\ t = "diagonal of transformed matrix " \/ r = 1%Z /\ t = "original coupled model " \/ r = 2%Z /\ t = "iterative model " \/
    r = 3%Z /\ t = "wrong re-weighted iterative model" \/ r = 4%Z /\ t = "correct re-weighted iterative model".
  Lemma pair_text_get r t : pair_text r t -> dget Z.eqb labels_pair r = Some t.
  Proof. intros [[-> ->]|[[-> ->]|[[-> ->]|[[-> ->]|[-> ->]]]]]; reflexivity. Qed.
  (** a set of results with one temperature and its reference *)
  Definition one_temperature (percent : bool) (x : drawn F) (num : Z -> F) (T : Q) (X : Z) (t : string) (y : F) : Prop :=
    let '(f, p, orig, g) := x in
    lst_T p = [T] /\ increasing_Z (lst_X p) /\ nth_error (lst_X p) (List.length (lst_X p) - 1) = Some X /\ fits p g /\
    (forall P, In P (lst_P p) -> of_int P = Ok (num P)) /\ pair_text (id_rho f) t /\ reference percent orig T y.
  (** its curve, with the highest number of samples *)
  Definition best_curve (x : drawn F) (num : Z -> F) (T : Q) (X : Z) (t : string) (m : marker) : mark F :=
    let '(f, p, orig, g) := x in
    Curve F (map (fun P => div (beta T) (num P)) (lst_P p)) (along p g 0 (List.length (lst_X p) - 1) "Z") (along p g 0 (List.length (lst_X p) - 1) "Z error") m
      ("Z (id\_rho=" ++ dec (id_rho f) ++ ") (X=" ++ sci X ++ ") " ++ t).
  Definition fs_of (x : drawn F) : fstruct := fst (fst (fst x)).
  Definition params_of (x : drawn F) : params := snd (fst (fst x)).
  Definition orig_of (x : drawn F) : list (string * json) := snd (fst x).
  Definition grid_of (x : drawn F) : grid F := snd x.
  Lemma last_split (l : list Z) X : nth_error l (List.length l - 1) = Some X -> exists xs, l = xs ++ [X].
  Proof.
    destruct (rev l) as [|Y r] eqn:R.
    - apply (f_equal (@rev Z)) in R. rewrite rev_involutive in R. subst. discriminate.
    - apply (f_equal (@rev Z)) in R. rewrite rev_involutive in R. cbn [rev] in R. subst. rewrite app_length. cbn [List.length]. rewrite nth_error_app2 by lia.
      replace (_ - _) with 0 by lia. intros [= ->]. eauto.
  Qed.
  Lemma pair_loop percent m x num T X t y ms : one_temperature percent x num T X t y ->
    for_res (pair_turn F zero of_int of_repr div beta sci percent m x) (lst_T (params_of x)) ms = Ok (ms ++ [best_curve x num T X t (marker_of m); Level F y orig_text]).
  Proof.
    destruct x as [[[f p] orig] g]. intros (ET & IX & NX & FI & N & LB & RF). apply pair_text_get in LB. apply orig_level in RF. destruct (last_split _ _ NX) as [xs EX].
    pose proof (single_increasing T) as S1. rewrite <- ET in S1. assert (N0 : nth_error (lst_T p) 0 = Some T) by (rewrite ET; reflexivity).
    unfold params_of. cbn [fst snd]. rewrite ET. cbn [for_res]. rewrite (pair_turn_ok F zero of_int of_repr div beta sci percent m f p orig g num T X xs t y ms IX FI S1 N0 EX N LB RF). reflexivity.
  Qed.
  (** C104: the comparison of two sets of one temperature each, for the first data sets *)
  Theorem C104_pair percent a b numa numb Ta Tb Xa Xb ta tb ya yb AN :
    one_temperature percent a numa Ta Xa ta ya -> one_temperature percent b numb Tb Xb tb yb -> (id_data (fs_of a) < 10)%Z -> dims (fs_of a) = Ok AN ->
    exists c, plot_pair (Ok tt) percent a b = ([c], Ok tt) /\
      ch_path F c = join (path_vib_plots (fs_of a)) ("Z_orig_D" ++ dec (id_data (fs_of a)) ++ "_R" ++ dec (id_rho (fs_of a)) ++ "_R" ++ dec (id_rho (fs_of b)) ++ ".pdf") /\
      ch_title F c = heading (fs_of a) AN /\ ch_ylabel F c = (if percent then "\% Difference    $Z_H$" else "$Z_H$") /\ ch_inset F c = [] /\
      ch_marks F c = [best_curve a numa Ta Xa ta Circle; Level F ya "Analytically derived Z from original model";
                      best_curve b numb Tb Xb tb Cross; Level F yb "Analytically derived Z from original model"].
  Proof.
    intros OA OB LI DI. pose proof (pair_loop percent 0 a numa Ta Xa ta ya [] OA) as PA. pose proof (pair_loop percent 1 b numb Tb Xb tb yb ([] ++ [best_curve a numa Ta Xa ta (marker_of 0); Level F ya orig_text]) OB) as PB.
    unfold params_of in PA, PB. unfold fs_of in *. eexists. split.
    - unfold Chart_Model.plot_pair, pair_Z. rewrite PA. cbn [bind]. rewrite PB. cbn [bind]. destruct (Z.leb_spec 10 (id_data (fst (fst (fst a))))); [lia|]. cbn [bind].
      unfold title_of. rewrite DI. cbn [bind saved charts_then app fst snd]. reflexivity.
    - cbn [ch_path ch_title ch_ylabel ch_inset ch_marks]. do 2 (split; [reflexivity|]). split; [destruct percent; reflexivity|]. split; reflexivity.
  Qed.
  (** C104: a second temperature of a set stops the comparison *)
  Theorem C104_pair_second percent a b num T T2 ts X t y :
    lst_T (params_of a) = T :: T2 :: ts -> increasing_Q (lst_T (params_of a)) -> increasing_Z (lst_X (params_of a)) ->
    nth_error (lst_X (params_of a)) (List.length (lst_X (params_of a)) - 1) = Some X -> fits (params_of a) (grid_of a) ->
    (forall P, In P (lst_P (params_of a)) -> of_int P = Ok (num P)) -> pair_text (id_rho (fs_of a)) t -> reference percent (orig_of a) T y ->
    plot_pair (Ok tt) percent a b = ([], Raise IndexError).
  Proof.
    destruct a as [[[f p] orig] g]. unfold params_of, grid_of, orig_of, fs_of. cbn [fst snd]. intros ET IT IX NX FI N LB RF. apply pair_text_get in LB. apply orig_level in RF. destruct (last_split _ _ NX) as [xs EX].
    assert (N0 : nth_error (lst_T p) 0 = Some T) by (rewrite ET; reflexivity). assert (N1 : nth_error (lst_T p) 1 = Some T2) by (rewrite ET; reflexivity).
    unfold Chart_Model.plot_pair, pair_Z. cbn [fst snd]. rewrite ET. cbn [for_res]. rewrite (pair_turn_ok F zero of_int of_repr div beta sci percent 0 f p orig g num T X xs t y [] IX FI IT N0 EX N LB RF). cbn [bind].
    rewrite (pair_turn_second F zero of_int of_repr div beta sci percent 0 f p orig g num T2 X xs t 0 _ IX FI IT N1 EX N LB). reflexivity.
  Qed.
  (** C104: the number of a sampling model has to be known *)
  Theorem C104_pair_unknown percent a b num T X :
    lst_T (params_of a) = [T] -> increasing_Z (lst_X (params_of a)) -> nth_error (lst_X (params_of a)) (List.length (lst_X (params_of a)) - 1) = Some X ->
    fits (params_of a) (grid_of a) -> (forall P, In P (lst_P (params_of a)) -> of_int P = Ok (num P)) -> (id_rho (fs_of a) < 0 \/ 4 < id_rho (fs_of a))%Z ->
    plot_pair (Ok tt) percent a b = ([], Raise KeyError).
  Proof.
    destruct a as [[[f p] orig] g]. unfold params_of, grid_of, fs_of. cbn [fst snd]. intros ET IX NX FI N LB. destruct (last_split _ _ NX) as [xs EX].
    pose proof (single_increasing T) as S1. rewrite <- ET in S1. assert (N0 : nth_error (lst_T p) 0 = Some T) by (rewrite ET; reflexivity).
    assert (L1 : 0 < List.length (lst_T p)) by (rewrite ET; cbn; lia). assert (L2 : List.length (lst_X p) - 1 < List.length (lst_X p)) by (apply nth_error_Some; congruence).
    unfold Chart_Model.plot_pair, pair_Z. cbn [fst snd]. rewrite ET. cbn [for_res]. unfold pair_turn. rewrite (self_index p T S1 0 N0). cbn [bind]. rewrite (tau_ok F of_int div beta p num T N). cbn [bind].
    rewrite EX at 1. rewrite last_item_app. cbn [bind]. rewrite (index_Z _ _ _ IX NX). cbn [bind]. rewrite !(column_ok F p) by assumption. cbn [bind].
    assert (G : dget Z.eqb labels_pair (id_rho f) = None).
    { unfold labels_pair. cbn [dget]. repeat match goal with |- context [Z.eqb ?u ?v] => destruct (Z.eqb_spec u v); [lia|] end. reflexivity. }
    unfold label_of. rewrite G. reflexivity.
  Qed.
  (** C104: without a number of samples there is nothing to draw *)
  Theorem C104_pair_no_samples percent a b num T ts :
    lst_T (params_of a) = T :: ts -> increasing_Q (lst_T (params_of a)) -> (forall P, In P (lst_P (params_of a)) -> of_int P = Ok (num P)) -> lst_X (params_of a) = [] ->
    plot_pair (Ok tt) percent a b = ([], Raise IndexError).
  Proof.
    destruct a as [[[f p] orig] g]. unfold params_of. cbn [fst snd]. intros ET IT N EX. assert (N0 : nth_error (lst_T p) 0 = Some T) by (rewrite ET; reflexivity).
    unfold Chart_Model.plot_pair, pair_Z. cbn [fst snd]. rewrite ET. cbn [for_res]. unfold pair_turn. rewrite (self_index p T IT 0 N0). cbn [bind]. rewrite (tau_ok F of_int div beta p num T N). cbn [bind].
    rewrite EX. reflexivity.
  Qed.
  (** C104: from data set 10 on there is an inset: the results with most beads and most samples at the inverse temperature
      of 300 K, whatever their own temperature; the text has the lowest number of samples, and it is the one of the
      position in the list, not of the sampling model *)
  Theorem C104_inset percent a b numa numb Ta Tb Xa Xb ta tb ya yb yi AN Xa0 Xb0 Pa Pb :
    one_temperature percent a numa Ta Xa ta ya -> one_temperature percent b numb Tb Xb tb yb -> (10 <= id_data (fs_of a))%Z -> dims (fs_of a) = Ok AN ->
    nth_error (lst_X (params_of a)) 0 = Some Xa0 -> nth_error (lst_X (params_of b)) 0 = Some Xb0 ->
    nth_error (lst_P (params_of a)) (List.length (lst_P (params_of a)) - 1) = Some Pa -> nth_error (lst_P (params_of b)) (List.length (lst_P (params_of b)) - 1) = Some Pb ->
    reference percent (orig_of a) (300 # 1) yi ->
    exists c, plot_pair (Ok tt) percent a b = ([c], Ok tt) /\
      ch_marks F c = [best_curve a numa Ta Xa ta Circle; Level F ya "Analytically derived Z from original model";
                      best_curve b numb Tb Xb tb Cross; Level F yb "Analytically derived Z from original model"] /\
      ch_inset F c =
        [Curve F [div (beta (300 # 1)) (numa Pa)]
           [cell F (grid_of a) (List.length (lst_P (params_of a)) - 1) 0 (List.length (lst_X (params_of a)) - 1) "Z"]
           [cell F (grid_of a) (List.length (lst_P (params_of a)) - 1) 0 (List.length (lst_X (params_of a)) - 1) "Z error"]
           Circle ("Z (id\_rho=" ++ dec (id_rho (fs_of a)) ++ ") (X=" ++ sci Xa0 ++ ") diagonal of transformed matrix ");
         Curve F [div (beta (300 # 1)) (numb Pb)]
           [cell F (grid_of b) (List.length (lst_P (params_of b)) - 1) 0 (List.length (lst_X (params_of b)) - 1) "Z"]
           [cell F (grid_of b) (List.length (lst_P (params_of b)) - 1) 0 (List.length (lst_X (params_of b)) - 1) "Z error"]
           Cross ("Z (id\_rho=" ++ dec (id_rho (fs_of b)) ++ ") (X=" ++ sci Xb0 ++ ") original coupled model ");
         Level F yi "Analytically derived Z from original model"].
  Proof.
    intros OA OB LI DI XA XB PA' PB' RF. pose proof (pair_loop percent 0 a numa Ta Xa ta ya [] OA) as PA. pose proof (pair_loop percent 1 b numb Tb Xb tb yb ([] ++ [best_curve a numa Ta Xa ta (marker_of 0); Level F ya orig_text]) OB) as PB.
    apply orig_level in RF. destruct (last_split _ _ PA') as [psa EPA]. destruct (last_split _ _ PB') as [psb EPB].
    destruct a as [[[fa pa] oa] ga], b as [[[fb pb] ob] gb]. unfold params_of, fs_of, orig_of, grid_of in *. cbn [fst snd] in *.
    destruct OA as (ETA & _ & _ & FIA & NA & _). destruct OB as (ETB & _ & _ & FIB & NB & _).
    destruct (lst_X pa) as [|x xs] eqn:EXA; [discriminate|]. injection XA as ->. destruct (lst_X pb) as [|x' xs'] eqn:EXB; [discriminate|]. injection XB as ->.
    assert (TA : lst_T pa <> []) by (rewrite ETA; discriminate). assert (TB : lst_T pb <> []) by (rewrite ETB; discriminate).
    pose proof (inset_curve_ok F of_int div beta sci 0 fa pa oa ga numa Xa0 xs psa Pa _ [] FIA TA EXA EPA NA eq_refl) as IA.
    eexists. split.
    - unfold Chart_Model.plot_pair, pair_Z. cbn [fst snd]. rewrite PA. cbn [bind]. rewrite PB. cbn [bind]. destruct (Z.leb_spec 10 (id_data fa)); [|lia].
      unfold inset. rewrite IA. cbn [bind]. rewrite (inset_curve_ok F of_int div beta sci 1 fb pb ob gb numb Xb0 xs' psb Pb _ _ FIB TB EXB EPB NB eq_refl). cbn [bind fst snd]. rewrite RF. cbn [bind].
      unfold title_of. rewrite DI. cbn [bind saved charts_then app fst snd]. reflexivity.
    - cbn [ch_inset ch_marks app]. split; [reflexivity|]. rewrite EXA, EXB. reflexivity.
  Qed.
  (** C104: and if the first set has no reference for 300 K, there is no picture at all *)
  Theorem C104_inset_only_300 percent a b numa numb Ta Tb Xa Xb ta tb ya yb :
    one_temperature percent a numa Ta Xa ta ya -> one_temperature percent b numb Tb Xb tb yb -> (10 <= id_data (fs_of a))%Z ->
    lst_P (params_of a) <> [] -> lst_P (params_of b) <> [] -> dget String.eqb (orig_of a) "300.00" = None ->
    plot_pair (Ok tt) percent a b = ([], Raise KeyError).
  Proof.
    intros OA OB LI NPA NPB NO. pose proof (pair_loop percent 0 a numa Ta Xa ta ya [] OA) as PA. pose proof (pair_loop percent 1 b numb Tb Xb tb yb ([] ++ [best_curve a numa Ta Xa ta (marker_of 0); Level F ya orig_text]) OB) as PB.
    destruct a as [[[fa pa] oa] ga], b as [[[fb pb] ob] gb]. unfold params_of, fs_of, orig_of, grid_of in *. cbn [fst snd] in *.
    destruct OA as (ETA & _ & NXA & FIA & NA & _). destruct OB as (ETB & _ & NXB & FIB & NB & _).
    destruct (exists_last NPA) as (psa & Pa & EPA). destruct (exists_last NPB) as (psb & Pb & EPB).
    destruct (lst_X pa) as [|x xs] eqn:EXA; [discriminate|]. destruct (lst_X pb) as [|x' xs'] eqn:EXB; [discriminate|].
    assert (TA : lst_T pa <> []) by (rewrite ETA; discriminate). assert (TB : lst_T pb <> []) by (rewrite ETB; discriminate).
    unfold Chart_Model.plot_pair, pair_Z. cbn [fst snd]. rewrite PA. cbn [bind]. rewrite PB. cbn [bind]. destruct (Z.leb_spec 10 (id_data fa)); [|lia].
    unfold inset. rewrite (inset_curve_ok F of_int div beta sci 0 fa pa oa ga numa x xs psa Pa _ [] FIA TA EXA EPA NA eq_refl). cbn [bind].
    rewrite (inset_curve_ok F of_int div beta sci 1 fb pb ob gb numb x' xs' psb Pb _ _ FIB TB EXB EPB NB eq_refl). cbn [bind fst snd].
    unfold true_answer. replace (fmt2 (300 # 1)) with "300.00" by (vm_compute; reflexivity). rewrite NO. reflexivity.
  Qed.

  (** the numbers of sampling models known to the class for sums over states *)
  Definition sos_known (r : Z) : Prop := In r [0; 1; 2; 10; 11; 12]%Z.
  Lemma sos_get r : (sos_known r -> exists t, dget Z.eqb labels_sos r = Some t) /\ (~ sos_known r -> dget Z.eqb labels_sos r = None).
  Proof.
    unfold sos_known, labels_sos. split.
    - intros I. repeat (destruct I as [<-|I]; [eexists; reflexivity|]). destruct I.
    - intros NI. cbn [dget]. repeat match goal with |- context [Z.eqb ?u ?v] => destruct (Z.eqb_spec u v) as [E|_]; [exfalso; apply NI; rewrite E; cbn; tauto|] end. reflexivity.
  Qed.
  (** C104: the comparison with sums over states never saves a picture *)
  Theorem C104_sos_refuted percent x b num :
    increasing_Q (lst_T (params_of x)) -> NoDup (lst_X (params_of x)) -> fits (params_of x) (grid_of x) -> lst_T (params_of x) <> [] ->
    (forall P, In P (lst_P (params_of x)) -> of_int P = Ok (num P)) ->
    exists e, plot_sos (Ok tt) percent x b = ([], Raise e) /\
      (~ In 10000%Z (lst_X (params_of x)) /\ e = ValueError \/
       In 10000%Z (lst_X (params_of x)) /\ ~ sos_known (id_rho (fs_of x)) /\ e = KeyError \/
       In 10000%Z (lst_X (params_of x)) /\ sos_known (id_rho (fs_of x)) /\ e = AttributeError).
  Proof.
    destruct x as [[[f p] orig] g]. unfold params_of, grid_of, fs_of. cbn [fst snd]. intros IT NX FI NT N.
    destruct (lst_T p) as [|T ts] eqn:ET; [congruence|]. rewrite <- ET in IT.
    assert (N0 : nth_error (lst_T p) 0 = Some T) by (rewrite ET; reflexivity). assert (L1 : 0 < List.length (lst_T p)) by (rewrite ET; cbn; lia).
    assert (NI : forall l, ~ In 10000%Z l -> index Z.eqb 10000%Z l = Raise ValueError).
    { induction l as [|z l IH]; intros NI; [reflexivity|]. cbn [index]. destruct (Z.eqb_spec z 10000); [exfalso; apply NI; left; auto|]. rewrite IH by (intros K; apply NI; right; exact K). reflexivity. }
    unfold Chart_Model.plot_sos, sos_Z. cbn [fst snd]. rewrite ET. cbn [for_res]. unfold sos_turn at 1. rewrite (self_index p T IT 0 N0). cbn [bind]. rewrite (tau_ok F of_int div beta p num T N). cbn [bind].
    destruct (in_dec Z.eq_dec 10000%Z (lst_X p)) as [I|NIX].
    - destruct (In_nth_error _ _ I) as [k NK]. rewrite (index_NoDup _ _ _ NX NK). cbn [bind]. assert (L2 : k < List.length (lst_X p)) by (apply nth_error_Some; congruence).
      rewrite !(column_ok F p) by assumption. cbn [bind]. unfold label_of. destruct (in_dec Z.eq_dec (id_rho f) [0; 1; 2; 10; 11; 12]%Z) as [K|K].
      + destruct (proj1 (sos_get (id_rho f)) K) as [t ->]. cbn [bind]. unfold errorbar. cbn [ax_item bind]. rewrite map_length, along_length, Nat.eqb_refl. cbn [bind saved charts_then app fst snd]. eexists. split; [reflexivity|]. right. right. auto.
      + rewrite (proj2 (sos_get (id_rho f)) K). cbn [bind saved charts_then app fst snd]. eexists. split; [reflexivity|]. right. left. auto.
    - rewrite (NI _ NIX). cbn [bind saved charts_then app fst snd]. eexists. split; [reflexivity|]. left. auto.
  Qed.
End Draw.
(** numbers as texts *)
Definition num_ex (z : Z) : res string := Ok (dec z).
Definition div_ex (a b : string) : string := (a ++ "/" ++ b)%string.
Definition beta_ex (T : Q) : string := ("b" ++ fmt2 T)%string.
Definition sci_ex (X : Z) : string := if (X =? 1000)%Z then "1.0E+03" else "1.0E+04".
Definition dims_ex (f : fstruct) : res (Z * Z) := Ok (2%Z, 3%Z).
Definition params_ex (T : Q) : params := mkParams [12; 20]%Z [T] [1000; 10000]%Z.
Definition grid_ex (name : string) : grid string := mkGrid string 2 1 2 (fun i j k key => (name ++ dec (Z.of_nat i) ++ dec (Z.of_nat k) ++ key)%string).
Definition orig_ex (T : Q) : list (string * json) := [(fmt2 T, JObj [("Z_coupled", JFloat "0.5")])].
Definition set_ex (d r : Z) (T : Q) (name : string) : drawn string := (build_fs "/" "/r" d r, params_ex T, orig_ex T, grid_ex name).
Example C104_example_test :
  plot_Z_test string num_ex div_ex beta_ex sci_ex (Ok tt) (build_fs "/" "/r" 3 1) (params_ex (300 # 1)) (grid_ex "v") =
  ([mkChart string "/r/data_set_3/rho_1/plots/Z_D3_R1.pdf" "Z MC" ""
      [Curve string ["b300.00/12"; "b300.00/20"] ["v00Z"; "v10Z"] ["v00Z error"; "v10Z error"] Circle "Z (T=300.00K) (X=1.0E+03)";
       Curve string ["b300.00/12"; "b300.00/20"] ["v01Z"; "v11Z"] ["v01Z error"; "v11Z error"] Circle "Z (T=300.00K) (X=1.0E+04)"] [];
    mkChart string "/r/data_set_3/rho_1/plots/E_D3_R1.pdf" "Energy" ""
      [Curve string ["b300.00/12"; "b300.00/20"] ["v00E"; "v10E"] ["v00E error"; "v10E error"] Circle "E (T=300.00K) (X=1.0E+03)";
       Curve string ["b300.00/12"; "b300.00/20"] ["v01E"; "v11E"] ["v01E error"; "v11E error"] Circle "E (T=300.00K) (X=1.0E+04)"] []],
   Raise AttributeError).
Proof. vm_compute. reflexivity. Qed.
Lemma one_ex percent d r T name t : pair_text r t ->
  one_temperature string "0" num_ex (fun s => s) percent (set_ex d r T name) dec T 10000 t (if percent then "0" else "0.5").
Proof.
  intros PT. split; [reflexivity|]. split. { intros [|[|i]] [|[|j]] x y A B L; cbn in A, B; try lia; try (destruct i; discriminate); try (destruct j; discriminate). injection A as <-. injection B as <-. lia. }
  split; [reflexivity|]. split; [repeat split|]. split; [reflexivity|]. split; [exact PT|]. unfold reference. do 2 eexists. split; [cbn; rewrite String.eqb_refl; reflexivity|]. split; [reflexivity|]. destruct percent; reflexivity.
Qed.
(** C104: that the curves of one picture belong to one temperature, or that their texts name it, is wrong *)
Theorem C104_mixed_refuted : exists a b ms,
  one_temperature string "0" num_ex (fun s => s) true a dec (250 # 1) 10000 "diagonal of transformed matrix " "0" /\
  one_temperature string "0" num_ex (fun s => s) true b dec (300 # 1) 10000 "original coupled model " "0" /\
  (exists c, plot_pair string "0" num_ex (fun s => s) div_ex beta_ex sci_ex dims_ex (Ok tt) true a b = ([c], Ok tt) /\ ch_marks string c = ms) /\
  ms = [Curve string ["b250.00/12"; "b250.00/20"] ["a01Z"; "a11Z"] ["a01Z error"; "a11Z error"] Circle "Z (id\_rho=0) (X=1.0E+04) diagonal of transformed matrix ";
        Level string "0" "Analytically derived Z from original model";
        Curve string ["b300.00/12"; "b300.00/20"] ["b01Z"; "b11Z"] ["b01Z error"; "b11Z error"] Cross "Z (id\_rho=1) (X=1.0E+04) original coupled model ";
        Level string "0" "Analytically derived Z from original model"].
Proof.
  exists (set_ex 3 0 (250 # 1) "a"), (set_ex 3 1 (300 # 1) "b"). eexists. split; [apply (one_ex true); unfold pair_text; auto 9|]. split; [apply (one_ex true); unfold pair_text; auto 9|].
  split; [eexists; split; vm_compute; reflexivity|]. vm_compute. reflexivity.
Qed.
(** C104: that the texts of the inset agree with those of the picture is wrong: other samples and another sampling model are named *)
Theorem C104_inset_text_refuted : exists a b c,
  one_temperature string "0" num_ex (fun s => s) true a dec (300 # 1) 10000 "iterative model " "0" /\
  one_temperature string "0" num_ex (fun s => s) true b dec (300 # 1) 10000 "wrong re-weighted iterative model" "0" /\
  plot_pair string "0" num_ex (fun s => s) div_ex beta_ex sci_ex dims_ex (Ok tt) true a b = ([c], Ok tt) /\
  ch_marks string c =
    [Curve string ["b300.00/12"; "b300.00/20"] ["a01Z"; "a11Z"] ["a01Z error"; "a11Z error"] Circle "Z (id\_rho=2) (X=1.0E+04) iterative model ";
     Level string "0" "Analytically derived Z from original model";
     Curve string ["b300.00/12"; "b300.00/20"] ["b01Z"; "b11Z"] ["b01Z error"; "b11Z error"] Cross "Z (id\_rho=3) (X=1.0E+04) wrong re-weighted iterative model";
     Level string "0" "Analytically derived Z from original model"] /\
  ch_inset string c =
    [Curve string ["b300.00/20"] ["a11Z"] ["a11Z error"] Circle "Z (id\_rho=2) (X=1.0E+03) diagonal of transformed matrix ";
     Curve string ["b300.00/20"] ["b11Z"] ["b11Z error"] Cross "Z (id\_rho=3) (X=1.0E+03) original coupled model ";
     Level string "0" "Analytically derived Z from original model"].
Proof.
  exists (set_ex 10 2 (300 # 1) "a"), (set_ex 10 3 (300 # 1) "b"). eexists. split; [apply (one_ex true); unfold pair_text; auto 9|]. split; [apply (one_ex true); unfold pair_text; auto 9|].
  split; [vm_compute; reflexivity|]. split; vm_compute; reflexivity.
Qed.
(** two temperatures, and the class for sums over states *)
Example C104_example_refused :
  plot_Z_test string num_ex div_ex beta_ex sci_ex (Ok tt) (build_fs "/" "/r" 3 1) (mkParams [12]%Z [250 # 1; 300 # 1] [1000]%Z) (mkGrid string 1 2 1 (fun _ _ _ key => key)) = ([], Raise TypeError) /\
  plot_sos string num_ex div_ex beta_ex sci_ex dims_ex (Ok tt) true (set_ex 3 0 (300 # 1) "a") (set_ex 3 11 (300 # 1) "b") = ([], Raise AttributeError) /\
  plot_sos string num_ex div_ex beta_ex sci_ex dims_ex (Ok tt) true (set_ex 3 3 (300 # 1) "a") (set_ex 3 11 (300 # 1) "b") = ([], Raise KeyError) /\
  plot_pair string "0" num_ex (fun s => s) div_ex beta_ex sci_ex dims_ex (Ok tt) true (set_ex 10 0 (250 # 1) "a") (set_ex 10 1 (300 # 1) "b") = ([], Raise KeyError).
Proof. vm_compute. repeat split. Qed.
(** two models in one data set, one of them with a result, and a result of an older model that is left out *)
Definition hashes_ex (path : string) : option (option string * option string) :=
  if String.eqb path "/r/data_set_3/rho_0/results/P12_T300.00_X1000_thermo" then Some (Some "m", Some "m") else Some (Some "old", Some "m").
Definition listing_ex (dir : string) : list string :=
  if String.eqb dir "/r/data_set_3/rho_0/results/" then ["P12_T300.00_X1000_thermo"; "notes"; "P20_T300.00_X1000_thermo"] else [].
Example C104_example_init :
  match init_pair (fun s => s) (fun _ => Some "m") listing_ex hashes_ex (ListFS [build_fs "/" "/r" 3 0; build_fs "/" "/r" 3 1]) with
  | Ok [x; y] => snd (fst x) = ["/r/data_set_3/rho_0/results/P12_T300.00_X1000_thermo"] /\ lst_P (snd x) = [12%Z] /\ lst_X (snd x) = [1000%Z] /\ snd (fst y) = []
  | _ => False
  end /\
  init_pair (fun s => s) (fun _ => Some "m") (fun _ => []) hashes_ex (ListFS [build_fs "/" "/r" 3 0; build_fs "/" "/r" 3 1]) = Raise OtherException.
Proof. vm_compute. repeat split. Qed.
Print Assumptions C104_init.
Print Assumptions C104_init_refused.
Print Assumptions C104_test_one.
Print Assumptions C104_temperatures_refuted.
Print Assumptions C104_empty.
Print Assumptions C104_latex.
Print Assumptions C104_original.
Print Assumptions C104_no_reference.
Print Assumptions C104_pair.
Print Assumptions C104_pair_second.
Print Assumptions C104_pair_unknown.
Print Assumptions C104_pair_no_samples.
Print Assumptions C104_inset.
Print Assumptions C104_inset_only_300.
Print Assumptions C104_sos_refuted.
Print Assumptions C104_mixed_refuted.
Print Assumptions C104_inset_text_refuted.
