(** C92: the reference values of the plots *)
From Coq Require Import QArith Lia.
From Verif Require Import Common Common_Proofs PyStr_Model FileName_Model FileName_Proofs FileStruct_Model FileStruct_Proofs Json_Model Plot_Spec Plot_Model Plot3_Proofs Plot4_Proofs Plot_Props.
Local Open Scope string_scope.
Local Open Scope list_scope.
Local Open Scope nat_scope.

(** C92: the analytical values are those of the file for the temperatures of the results *)
Theorem C92_analytic fs path ts text kvs : fs path = Some text -> loads text = Ok (JObj kvs) ->
  (forall T, In T ts -> dget String.eqb kvs (fmt2 T) <> None) -> exists d, load_analytical fs path ts = Ok d /\ restricted kvs ts d.
Proof. intros A B C. unfold load_analytical, load_json. rewrite A, B. cbn [bind]. exact (restrict_ok kvs ts C). Qed.
(** C92: a temperature that is missing in the file is an error, as is a missing file *)
Theorem C92_analytic_fails fs path ts :
  (fs path = None -> load_analytical fs path ts = Raise OSError) /\
  (forall text kvs T, fs path = Some text -> loads text = Ok (JObj kvs) -> In T ts -> dget String.eqb kvs (fmt2 T) = None -> load_analytical fs path ts = Raise KeyError) /\
  (forall text e, fs path = Some text -> loads text = Raise e -> load_analytical fs path ts = Raise e) /\
  (forall text v T, fs path = Some text -> loads text = Ok v -> (forall kvs, v <> JObj kvs) -> In T ts -> load_analytical fs path ts = Raise TypeError).
Proof.
  unfold load_analytical, load_json. split; [|split; [|split]].
  - intros ->. reflexivity.
  - intros text kvs T -> -> I N. cbn [bind]. apply (dict_raise (sub (JObj kvs)) KeyError ts T I); [cbn [sub]; rewrite N; reflexivity|].
    intros T' _. cbn [sub]. destruct (dget String.eqb kvs (fmt2 T')); eauto.
  - intros text e -> ->. reflexivity.
  - intros text v T -> -> N I. cbn [bind]. assert (E : forall n, sub v n = Raise TypeError) by (intros n; destruct v; try reflexivity; exfalso; eapply N; reflexivity).
    apply (dict_raise (sub v) TypeError ts T I); [apply E|]. intros T' _. right. apply E.
Qed.

(** C92: the values of the sum over states are those of the last system so far that has a file *)
Theorem C92_sos fs B l paths content :
  (forall m f p, nth_error l m = Some (f, p) -> sos_at f B (paths m)) ->
  (forall m, m < List.length l -> match content m with None => fs (paths m) = None | Some kvs => exists text, fs (paths m) = Some text /\ loads text = Ok (JObj kvs) end) ->
  (forall m f p, nth_error l m = Some (f, p) -> exists kvs, latest content m kvs /\ forall T, In T (lst_T p) -> dget String.eqb kvs (fmt2 T) <> None) ->
  exists ds, load_sos fs B l = Ok ds /\ List.length ds = List.length l /\
    forall m f p, nth_error l m = Some (f, p) -> exists kvs d, nth_error ds m = Some d /\ latest content m kvs /\ restricted kvs (lst_T p) d.
Proof.
  intros PA CO FI. destruct (sos_go fs B l paths content PA CO FI l [] None [] eq_refl eq_refl eq_refl) as (st & ds & E & L & H).
  exists ds. unfold load_sos. rewrite E. cbn [bind snd app]. auto.
Qed.
(** C92: if the first system has no file, there is no value *)
Theorem C92_sos_first fs B f p l path : sos_at f B path -> fs path = None -> lst_T p <> [] -> load_sos fs B ((f, p) :: l) = Raise UnboundLocalError.
Proof.
  intros A N T. unfold load_sos. cbn [for_res]. unfold load_sos_turn at 1. cbn [fst snd]. rewrite (sos_at_path _ _ _ A). cbn [bind]. rewrite N. cbn [bind].
  destruct (lst_T p); [contradiction|]. reflexivity.
Qed.
(** "a system without a file has no values" *)
Definition own_file_needed : Prop := forall fs B l ds m f p path, load_sos fs B l = Ok ds -> nth_error l m = Some (f, p) -> lst_T p <> [] -> sos_at f B path -> fs path <> None.
Definition ex_p := mkParams [] [300%Q] [].
Definition ex_sos : fsys string := fun path => if String.eqb path "/w/data_set_1/parameters/sos_B80.json" then Some "{""300.00"": {""Z_coupled"": 5}}" else None.
Lemma ex_sos_at d : (d = 1 \/ d = 2)%Z -> sos_at (build_fs "/" "/w" d 0) 80 (if Z.eqb d 1 then "/w/data_set_1/parameters/sos_B80.json" else "/w/data_set_2/parameters/sos_B80.json").
Proof. intros [-> | ->]; [exists "/w/data_set_1/parameters/"|exists "/w/data_set_2/parameters/"]; (split; [reflexivity|split; [reflexivity|reflexivity]]). Qed.
Theorem C92_sos_refuted : ~ own_file_needed.
Proof.
  intros H. refine (H ex_sos 80%Z [(build_fs "/" "/w" 1 0, ex_p); (build_fs "/" "/w" 2 0, ex_p)] [[("300.00", JObj [("Z_coupled", JInt 5)])]; [("300.00", JObj [("Z_coupled", JInt 5)])]] 1 _ ex_p _ _ eq_refl _ (ex_sos_at 2%Z (or_intror eq_refl)) _).
  - vm_compute. reflexivity.
  - discriminate.
  - vm_compute. reflexivity.
Qed.

Section Values.
  Variable F : Type.
  Variable nan : F.
  Variable of_int : Z -> res F.
  Variable of_repr : string -> F.
  Variable of_text : string -> res F.
  Variable mul : F -> F -> F.
  Notation to_f64 := (to_f64 F nan of_int of_repr of_text).

  (** C92: the Trotter values: a column for each key, with an element for each number of beads; no value, no file or
      a file that can not be read gives nan *)
  Theorem C92_trotter fs f p B path (num : Q -> Z -> string -> F) : trotter_at f B path ->
    (forall T P key v, In T (lst_T p) -> In P (lst_P p) -> In key ["Z_trotter"; "E_trotter"; "SvN_trotter"; "S2_trotter"] -> trotter_value fs (path P) T key v -> to_f64 v = Ok (num T P key)) ->
    exists d, load_trotter F nan of_int of_repr of_text fs f p B = Ok d /\
      (forall T, In T (lst_T p) -> exists cols, dget String.eqb d (fmt2 T) = Some cols /\ map fst cols = ["Z_trotter"; "E_trotter"; "SvN_trotter"; "S2_trotter"] /\
         forall key, In key ["Z_trotter"; "E_trotter"; "SvN_trotter"; "S2_trotter"] -> dget String.eqb cols key = Some (map (fun P => num T P key) (lst_P p))) /\
      (forall n, ~ (exists T, In T (lst_T p) /\ n = fmt2 T) -> dget String.eqb d n = None).
  Proof.
    intros A H. unfold load_trotter.
    destruct (dict_of (trotter_column F nan of_int of_repr of_text fs f p B) (fun T => map (fun key => (key, map (fun P => num T P key) (lst_P p))) ["Z_trotter"; "E_trotter"; "SvN_trotter"; "S2_trotter"]) (lst_T p)) with (d0 := @nil (string * list (string * list F))) as (d & E & D1 & D2).
    - intros T I. apply (column_ok F nan of_int of_repr of_text fs f p B path A T (num T)). intros P key v. apply H. exact I.
    - intros T T' EQ. apply column_same. exact EQ.
    - exists d. split; [exact E|]. split; [|exact D2]. intros T I. eexists. split; [apply D1; exact I|]. split; [reflexivity|]. intros key [<-|[<-|[<-|[<-|[]]]]]; reflexivity.
  Qed.
  (** C92: in particular, where there is no value, nan *)
  Theorem C92_trotter_nan fs path T key v : (fs path = None \/ (exists text e, fs path = Some text /\ loads text = Raise e)) ->
    trotter_value fs path T key v -> to_f64 v = Ok nan.
  Proof.
    intros N [(vals & (t & d & A & B & _) & _)|[_ ->]]; [|reflexivity]. destruct N as [N|(text & e & N & N')]; congruence.
  Qed.

  Definition scaled (zr : Q -> F) (p : params) (g g' : grid F) : Prop :=
    same_dims F g g' /\ forall i j k n, cell F g' i j k n =
      match nth_error (lst_T p) j with
      | Some T => if String.eqb n "Z" then mul (cell F g i j k n) (zr T) else if String.eqb n "Z error" then mul (cell F g i j k n) (zr T) else cell F g i j k n
      | None => cell F g i j k n
      end.
  (** C92: the plots against the sum over states can not be prepared: an attribute that nobody sets is read *)
  Theorem C92_sos_never (l : list (loaded F)) (zr : nat -> Q -> F) :
    (forall m p rho orig g, nth_error l m = Some (p, rho, orig, g) -> increasing_Q (lst_T p) /\ forall T, In T (lst_T p) -> known F of_int of_repr rho T "Z_sampling" (zr m T)) ->
    ((exists p rho orig g, In (p, rho, orig, g) l /\ lst_T p <> [] /\ lst_X p <> []) -> prepare_sos F of_int of_repr mul l = Raise AttributeError) /\
    ((forall p rho orig g, In (p, rho, orig, g) l -> lst_T p = [] \/ lst_X p = []) -> exists gs, prepare_sos F of_int of_repr mul l = Ok gs /\ List.length gs = List.length l /\
       forall m p rho orig g, nth_error l m = Some (p, rho, orig, g) -> exists g', nth_error gs m = Some g' /\ scaled (zr m) p g g').
  Proof.
    intros K. unfold prepare_sos.
    assert (A : exists r, map_res (fun x : loaded F => let '(p, rho, orig, g) := x in do g <- scale_by_rho F of_int of_repr mul p rho g; Ok (p, rho, orig, g)) l = Ok r /\ List.length r = List.length l /\
      forall m p rho orig g, nth_error l m = Some (p, rho, orig, g) -> exists g', nth_error r m = Some (p, rho, orig, g') /\ scaled (zr m) p g g').
    { revert zr K. induction l as [|[[[p rho] orig] g] r IH]; intros zr K.
      - exists []. split; [reflexivity|]. split; [reflexivity|]. intros m p rho orig g N. destruct m; discriminate.
      - destruct (K 0 _ _ _ _ eq_refl) as (IT & V). destruct (IH (fun m => zr (S m)) (fun m => K (S m))) as (r' & E & L & H).
        destruct (scale_ok F of_int of_repr mul p rho (zr 0) g IT (fun T I => known_value F of_int of_repr _ _ _ _ (V T I))) as (g1 & S1 & D & C).
        exists ((p, rho, orig, g1) :: r'). cbn [map_res]. rewrite S1, E. cbn [bind]. split; [reflexivity|]. split; [cbn; congruence|].
        intros m p' rho' orig' g' N. destruct m as [|m].
        + injection N as <- <- <- <-. exists g1. split; [reflexivity|]. split; [exact D|]. intros i j k n. rewrite C. destruct (nth_error (lst_T p) j); [|reflexivity]. destruct (String.eqb n "Z"), (String.eqb n "Z error"); reflexivity.
        + exact (H m _ _ _ _ N). }
    destruct A as (r & -> & L & H). cbn [bind]. split.
    - intros (p & rho & orig & g & I & NT & NX). apply In_nth_error in I. destruct I as [m N]. destruct (H m _ _ _ _ N) as (g' & N' & _). clear H L N. revert m N'.
      induction r as [|[[[p1 rho1] orig1] g1] r IH]; intros m N'; [destruct m; discriminate|]. cbn [map_res].
      destruct m as [|m].
      + injection N' as -> -> -> ->. destruct (lst_X p); [contradiction|]. destruct (lst_T p); [contradiction|]. reflexivity.
      + specialize (IH m N'). destruct (lst_X p1), (lst_T p1); cbn [bind]; try rewrite IH; reflexivity.
    - intros NE. exists (map (fun x : loaded F => snd x) r).
      assert (R : forall p rho orig g, In (p, rho, orig, g) r -> lst_T p = [] \/ lst_X p = []).
      { intros p rho orig g I. apply In_nth_error in I. destruct I as [m N]. assert (M : m < List.length l) by (rewrite <- L; apply nth_error_Some; congruence).
        destruct (nth_error l m) as [[[[p0 rho0] orig0] g0]|] eqn:N0; [|apply nth_error_None in N0; lia]. destruct (H m _ _ _ _ N0) as (g' & N' & _). assert (p = p0) by congruence. subst p0. eapply NE. eapply nth_error_In. exact N0. }
      split; [|split; [rewrite map_length; exact L|]].
      + clear H L. induction r as [|[[[p1 rho1] orig1] g1] r IH]; [reflexivity|]. cbn [map_res map snd]. rewrite IH by (intros; eapply R; right; eassumption).
        destruct (R p1 rho1 orig1 g1 (or_introl eq_refl)) as [E|E]; rewrite E; [destruct (lst_X p1); reflexivity|reflexivity].
      + intros m p rho orig g N. destruct (H m _ _ _ _ N) as (g' & N' & SC). exists g'. split; [exact (map_nth_error (fun x : loaded F => snd x) m r N')|exact SC].
  Qed.
  (** C92: nor can the plots of a rectangle *)
  Theorem C92_rectangle_never (l : list (loaded F)) :
    (forall p rho orig g T, In (p, rho, orig, g) l -> In T (lst_T p) -> exists v x, dget String.eqb rho (fmt2 T) = Some v /\ sub v "Z_sampling" = Ok x) ->
    ((exists p rho orig g, In (p, rho, orig, g) l /\ lst_T p <> []) -> prepare_rectangle F l = Raise AttributeError) /\
    ((forall p rho orig g, In (p, rho, orig, g) l -> lst_T p = []) -> prepare_rectangle F l = Ok (map (fun x : loaded F => snd x) l)).
  Proof.
    intros K. unfold prepare_rectangle. split.
    - intros (p & rho & orig & g & I & N). induction l as [|[[[p1 rho1] orig1] g1] r IH]; [destruct I|]. cbn [map_res].
      pose proof (fun p rho orig g T I => K p rho orig g T (or_intror I)) as K'. specialize (IH K').
      destruct (lst_T p1) as [|T ts] eqn:E.
      + destruct I as [I|I]; [injection I as -> -> -> ->; contradiction|]. rewrite (IH I). reflexivity.
      + destruct (K p1 rho1 orig1 g1 T (or_introl eq_refl)) as (v & x & -> & ->); [rewrite E; left; reflexivity|]. reflexivity.
    - intros N. clear K. induction l as [|[[[p1 rho1] orig1] g1] r IH]; [reflexivity|]. cbn [map_res map snd]. rewrite (N p1 rho1 orig1 g1 (or_introl eq_refl)), IH by (intros; eapply N; right; eassumption). reflexivity.
  Qed.
End Values.

(** ** examples *)
Example C92_analytic_ex : exists kvs, loads "{""300.00"": {""Z_coupled"": 5}, ""250.00"": 1}" = Ok (JObj kvs) /\ dget String.eqb kvs (fmt2 300) <> None /\
  load_analytical (fun _ => Some "{""300.00"": {""Z_coupled"": 5}, ""250.00"": 1}") "a" [300%Q] = Ok [("300.00", JObj [("Z_coupled", JInt 5)])] /\
  load_analytical (fun _ => Some "{""300.00"": {""Z_coupled"": 5}, ""250.00"": 1}") "a" [310%Q] = Raise KeyError.
Proof. eexists. split; [vm_compute; reflexivity|]. split; [vm_compute; discriminate|]. split; vm_compute; reflexivity. Qed.
(** two systems, the second without a file *)
Example C92_sos_ex :
  let l := [(build_fs "/" "/w" 1 0, ex_p); (build_fs "/" "/w" 2 0, ex_p)] in
  let content m := match m with O => Some [("300.00", JObj [("Z_coupled", JInt 5)])] | _ => None end in
  let paths m := match m with O => "/w/data_set_1/parameters/sos_B80.json" | _ => "/w/data_set_2/parameters/sos_B80.json" end in
  (forall m f p, nth_error l m = Some (f, p) -> sos_at f 80 (paths m)) /\
  (forall m, m < List.length l -> match content m with None => ex_sos (paths m) = None | Some kvs => exists text, ex_sos (paths m) = Some text /\ loads text = Ok (JObj kvs) end) /\
  (forall m f p, nth_error l m = Some (f, p) -> exists kvs, latest content m kvs /\ forall T, In T (lst_T p) -> dget String.eqb kvs (fmt2 T) <> None).
Proof.
  cbv zeta. split; [|split].
  - intros m f p N. destruct m as [|[|m]]; [| |destruct m; discriminate]; injection N as <- <-; [exact (ex_sos_at 1%Z (or_introl eq_refl))|exact (ex_sos_at 2%Z (or_intror eq_refl))].
  - intros m L. destruct m as [|[|m]]; [eexists; split; [reflexivity|vm_compute; reflexivity]|reflexivity|cbn in L; lia].
  - intros m f p N. exists [("300.00", JObj [("Z_coupled", JInt 5)])]. split.
    + exists 0. split; [lia|]. split; [reflexivity|]. intros j J. destruct j; [lia|reflexivity].
    + assert (p = ex_p) by (destruct m as [|[|m]]; [| |destruct m; discriminate]; injection N as _ <-; reflexivity). subst p. intros T [<-|[]]. vm_compute. discriminate.
Qed.
Example C92_sos_first_ex : load_sos ex_sos 80 [(build_fs "/" "/w" 2 0, ex_p); (build_fs "/" "/w" 1 0, ex_p)] = Raise UnboundLocalError.
Proof. vm_compute. reflexivity. Qed.
(** two numbers of beads, no file for the second *)
Definition ex_trotter : fsys string := fun path => if String.eqb path "/w/data_set_1/parameters/trotter_P8_B80.json" then Some "{""300.00"": {""Z_trotter"": 5, ""S2_trotter"": 2}}" else None.
Example C92_trotter_ex :
  load_trotter Z (-1)%Z (fun z => Ok z) (fun _ => 0%Z) (fun _ => Raise ValueError) ex_trotter (build_fs "/" "/w" 1 0) (mkParams [8; 12]%Z [300%Q] []) 80 =
    Ok [("300.00", [("Z_trotter", [5; -1]%Z); ("E_trotter", [-1; -1]%Z); ("SvN_trotter", [-1; -1]%Z); ("S2_trotter", [2; -1]%Z)])] /\
  trotter_at (build_fs "/" "/w" 1 0) 80 (fun P => "/w/data_set_1/parameters/" ++ trotter_file P 80)%string.
Proof. split; [vm_compute; reflexivity|]. exists "/w/data_set_1/parameters/". split; [reflexivity|]. split; [reflexivity|]. reflexivity. Qed.
Example C92_sos_never_ex :
  let g := mkGrid Z 1 1 1 (fun _ _ _ _ => 8%Z) in
  prepare_sos Z (fun z => Ok z) (fun _ => 0%Z) Z.mul [(mkParams [8]%Z [300%Q] [10%Z], ex_rho, ex_orig, g)] = Raise AttributeError /\
  prepare_sos Z (fun z => Ok z) (fun _ => 0%Z) Z.mul [(mkParams [8]%Z [] [10%Z], ex_rho, ex_orig, g)] = Ok [g] /\
  known Z (fun z => Ok z) (fun _ => 0%Z) ex_rho 300%Q "Z_sampling" 3%Z.
Proof.
  cbv zeta. split; [vm_compute; reflexivity|]. split; [reflexivity|]. eexists. eexists. split; [vm_compute; reflexivity|]. split; [reflexivity|]. right. right. left. eexists. split; reflexivity.
Qed.
Example C92_rectangle_ex : prepare_rectangle Z [(mkParams [8]%Z [300%Q] [10%Z], ex_rho, ex_orig, mkGrid Z 1 1 1 (fun _ _ _ _ => 8%Z))] = Raise AttributeError.
Proof. vm_compute. reflexivity. Qed.

Print Assumptions C92_analytic.
Print Assumptions C92_analytic_fails.
Print Assumptions C92_sos.
Print Assumptions C92_sos_first.
Print Assumptions C92_sos_refuted.
Print Assumptions C92_trotter.
Print Assumptions C92_trotter_nan.
Print Assumptions C92_sos_never.
Print Assumptions C92_rectangle_never.
