(** C106: the scripts that draw the pictures of the results of the examples *)
From Coq Require Import QArith Permutation Lia.
From Verif Require Import Common Common_Proofs PyStr_Model PyStr_Proofs FileName_Model FileName_Proofs Json_Model FileStruct_Model FileStruct_Proofs Results_Model Analysis_Model Plot_Model Chart_Model Chart_Props
  Submit_Model Submit2_Model Setup_Model Survey_Model Survey_Props Gallery_Model Gallery_Proofs.
Local Open Scope string_scope.
Local Open Scope list_scope.
Local Open Scope nat_scope.

Lemma root_slash e : ends_with_slash (root_of e) = true. Proof. destruct e; reflexivity. Qed.
Lemma names_same e : ex_names e = systems_of e. Proof. destruct e; reflexivity. Qed.

Section Gallery.
  Variable F : Type.
  Variable zero : F.
  Variable of_int : Z -> res F.
  Variable of_repr : string -> F.
  Variable div : F -> F -> F.
  Variable beta : Q -> F.
  Variable sci : Z -> string.
  Variable dims : fstruct -> res (Z * Z).
  Variable H : string -> string.
  Variable fs : fsys string.
  Variable listing : string -> list string.
  Variable hashes : hashes_of.
  Variable load : prepared -> res (list (string * json) * grid F).
  Variable latex : res unit.
  Variable percent : bool.
  Notation draw_pair := (draw_pair F zero of_int of_repr div beta sci dims H fs listing hashes load latex percent).
  Notation draw_single := (draw_single F of_int div beta sci H fs listing hashes load latex).
  Notation automate_plots := (automate_plots F zero of_int of_repr div beta sci dims H fs listing hashes load latex percent).
  Notation processes := (processes F zero of_int of_repr div beta sci dims H fs listing hashes load latex percent).
  Notation plot_pair := (plot_pair F zero of_int of_repr div beta sci dims latex percent).
  Notation plot_Z_test := (plot_Z_test F of_int div beta sci latex).
  Notation knows := (knows H fs listing hashes).

  (** C106: an unknown system or another computer is refused, and nothing is drawn or made *)
  Theorem C106_refused s cwd host is_dir ds name :
    (~ In name (systems_of (example_of s)) -> automate_plots s cwd host is_dir ds name = (ds, [], Raise AssertionError)) /\
    (In name (systems_of (example_of s)) -> host <> "nlogn" -> host <> "feynman" -> automate_plots s cwd host is_dir ds name = (ds, [], Raise OtherException)).
  Proof.
    unfold Gallery_Model.automate_plots. split.
    - intros N. destruct (existsb _ _) eqn:E; [apply name_ok in E; contradiction|reflexivity].
    - intros N A B. apply name_ok in N. rewrite N, (host_bad _ _ A B). reflexivity.
  Qed.
  (** C106: without the root directory every attempt fails, and that is not noticed *)
  Theorem C106_no_root s cwd host ds name : In name (systems_of (example_of s)) -> host = "nlogn" \/ host = "feynman" ->
    automate_plots s cwd host false ds name = (ds, [], Ok tt).
  Proof. intros N A. unfold Gallery_Model.automate_plots. apply name_ok in N. rewrite N, (host_ok _ _ A), attempts_noroot. reflexivity. Qed.

  (** the FileStructure of a pair in the directory of an example *)
  Definition at_pair (e : example) (cwd : string) (d r : Z) : fstruct := build_fs cwd (root_of e) d r.

  (** C106: the comparisons.  A failure for one pair does not keep the others from being drawn *)
  Theorem C106_pairs e cwd host ds name : In name (systems_of e) -> host = "nlogn" \/ host = "feynman" ->
    exists ds' cs, automate_plots (PairsOf e) cwd host true ds name = (ds', cs, Ok tt) /\
      (forall c, In c cs <-> exists d r, belongs e name d r /\ fst (draw_pair (at_pair e cwd d 0) (at_pair e cwd d r)) = [c]) /\
      (forall d r c, fst (draw_pair (at_pair e cwd d 0) (at_pair e cwd d r)) = [c] ->
         ch_path F c = (root_of e ++ "data_set_" ++ dec d ++ "/plots/Z_orig_D" ++ dec d ++ "_R0_R" ++ dec r ++ ".pdf")%string) /\
      NoDup (map (ch_path F) cs) /\
      (forall p, In p ds' <-> In p ds \/ exists d r, belongs e name d r /\ (In p (dir_values (at_pair e cwd d 0)) \/ In p (dir_values (at_pair e cwd d r)))).
  Proof.
    intros N A. unfold Gallery_Model.automate_plots. apply name_ok in N. cbn [example_of]. rewrite N, (host_ok _ _ A).
    destruct (attempts _ _ _ _ _ _ _ _ _ _ _ _ _ _ _ (PairsOf e) cwd (root_of e) true ds (survey_pairs e name)) as [ds' cs] eqn:E.
    pose proof (attempts_charts F zero of_int of_repr div beta sci dims H fs listing hashes load latex percent (PairsOf e) cwd (root_of e) (survey_pairs e name) ds) as C.
    pose proof (attempts_dirs F zero of_int of_repr div beta sci dims H fs listing hashes load latex percent (PairsOf e) cwd (root_of e) (survey_pairs e name) ds) as D.
    rewrite E in C, D. cbn [fst snd drawn_by] in C, D. exists ds', cs. split; [reflexivity|]. split; [|split; [|split]].
    - intros c. rewrite C, in_flat_map. split.
      + intros ((d & r) & I & J). cbn [fst snd] in J. exists d, r. split; [apply pairs_in; exact I|]. apply draw_pair_path in J. apply J.
      + intros (d & r & I & J). exists (d, r). split; [apply pairs_in; exact I|]. cbn [fst snd]. unfold at_pair in J. rewrite J. left. reflexivity.
    - intros d r c J. pose proof (drawn_paths F zero of_int of_repr div beta sci dims H fs listing hashes load latex percent (PairsOf e) cwd (root_of e) d r (root_slash e)) as [n P].
      unfold drawn_by in P. unfold at_pair in J. rewrite J in P. destruct n as [|n]; [discriminate|]. cbn [map firstn] in P. rewrite firstn_nil in P. injection P as P. exact P.
    - rewrite C. apply (all_nodup F zero of_int of_repr div beta sci dims H fs listing hashes load latex percent (PairsOf e)); [apply root_slash|apply sorted_nodup, pairs_sorted].
    - intros p. rewrite (D p). split; (intros [I|(d & r & I & J)]; [left; exact I|right; exists d, r; split; [apply pairs_in; exact I|]]).
      + destruct J as [J|[_ J]]; auto.
      + destruct J as [J|J]; [right; split; [discriminate|exact J]|left; exact J].
  Qed.
  (** C106: the pictures of single sets of results *)
  Theorem C106_singles cwd host ds name : In name (systems_of Paper) -> host = "nlogn" \/ host = "feynman" ->
    exists ds' cs, automate_plots SinglesOfPaper cwd host true ds name = (ds', cs, Ok tt) /\
      (forall c, In c cs <-> exists d r, belongs Paper name d r /\ In c (fst (draw_single (at_pair Paper cwd d r)))) /\
      (forall d r, exists n, map (ch_path F) (fst (draw_single (at_pair Paper cwd d r))) =
         firstn n (map (fun key => (root_of Paper ++ "data_set_" ++ dec d ++ "/rho_" ++ dec r ++ "/plots/" ++ key ++ "_D" ++ dec d ++ "_R" ++ dec r ++ ".pdf")%string) ["Z"; "E"; "Cv"])) /\
      NoDup (map (ch_path F) cs) /\
      (forall p, In p ds' <-> In p ds \/ exists d r, belongs Paper name d r /\ In p (dir_values (at_pair Paper cwd d r))).
  Proof.
    intros N A. unfold Gallery_Model.automate_plots. apply name_ok in N. cbn [example_of]. rewrite N, (host_ok _ _ A).
    destruct (attempts _ _ _ _ _ _ _ _ _ _ _ _ _ _ _ SinglesOfPaper cwd (root_of Paper) true ds (survey_pairs Paper name)) as [ds' cs] eqn:E.
    pose proof (attempts_charts F zero of_int of_repr div beta sci dims H fs listing hashes load latex percent SinglesOfPaper cwd (root_of Paper) (survey_pairs Paper name) ds) as C.
    pose proof (attempts_dirs F zero of_int of_repr div beta sci dims H fs listing hashes load latex percent SinglesOfPaper cwd (root_of Paper) (survey_pairs Paper name) ds) as D.
    rewrite E in C, D. cbn [fst snd drawn_by] in C, D. exists ds', cs. split; [reflexivity|]. split; [|split; [|split]].
    - intros c. rewrite C, in_flat_map. split.
      + intros ((d & r) & I & J). exists d, r. split; [apply pairs_in; exact I|exact J].
      + intros (d & r & I & J). exists (d, r). split; [apply pairs_in; exact I|exact J].
    - intros d r. exact (drawn_paths F zero of_int of_repr div beta sci dims H fs listing hashes load latex percent SinglesOfPaper cwd (root_of Paper) d r (root_slash Paper)).
    - rewrite C. apply (all_nodup F zero of_int of_repr div beta sci dims H fs listing hashes load latex percent SinglesOfPaper); [apply root_slash|apply sorted_nodup, pairs_sorted].
    - intros p. rewrite (D p). split; (intros [I|(d & r & I & J)]; [left; exact I|right; exists d, r; split; [apply pairs_in; exact I|]]).
      + destruct J as [J|[X _]]; [exact J|contradiction].
      + left. exact J.
  Qed.

  (** C106: what a comparison shows: the results that belong to the models of the two *)
  Theorem C106_pair f0 fx c : In c (fst (draw_pair f0 fx)) ->
    exists x y oa ga ob gb, knows f0 x /\ knows fx y /\ (snd (fst x) <> [] \/ snd (fst y) <> []) /\
      load x = Ok (oa, ga) /\ load y = Ok (ob, gb) /\
      draw_pair f0 fx = plot_pair (fst (fst x), snd x, oa, ga) (fst (fst y), snd y, ob, gb).
  Proof.
    unfold Gallery_Model.draw_pair. intros I. destruct (init_pair H fs listing hashes (ListFS [f0; fx])) as [l|] eqn:E; [|destruct I]. cbn [bind] in *.
    apply (C104_init H fs listing hashes) in E. destruct E as (f1 & f2 & x & y & E & -> & K1 & K2 & NE). injection E as <- <-.
    cbn [map_res] in *. unfold load_drawn in *. destruct (load x) as [[oa ga]|] eqn:L1; [|destruct I]. cbn [bind] in *. destruct (load y) as [[ob gb]|] eqn:L2; [|destruct I]. cbn [bind fst snd] in *.
    exists x, y, oa, ga, ob, gb. auto 9.
  Qed.
  (** C106: what the pictures of one set of results show *)
  Theorem C106_single f c : In c (fst (draw_single f)) ->
    exists x o g, knows f x /\ load x = Ok (o, g) /\ draw_single f = plot_Z_test (fst (fst x)) (snd x) g.
  Proof.
    unfold Gallery_Model.draw_single. intros I. destruct (init_single H fs listing hashes (OneFS f)) as [l|] eqn:E; [|destruct I]. cbn [bind] in *.
    apply (C104_init H fs listing hashes) in E. destruct E as (f1 & x & E & -> & K). injection E as <-.
    cbn [map_res] in *. unfold load_drawn in *. destruct (load x) as [[o g]|] eqn:L1; [|destruct I]. cbn [bind fst snd] in *. exists x, o, g. auto.
  Qed.

  Lemma no_files_no_X l p : generate_parameter_lists l = Ok p -> lst_T p = [] -> lst_X p = [].
  Proof.
    unfold generate_parameter_lists. destruct (map_res extract_bead l) as [ps|]; [|discriminate]. cbn [bind].
    destruct (map_res extract_temperature_thermo l) as [ts|] eqn:T; [|discriminate]. cbn [bind]. destruct (map_res extract_sample_thermo l) as [xs|] eqn:X; [|discriminate]. cbn [bind].
    intros E. injection E as <-. cbn. intros E. apply map_res_spec in T. apply map_res_spec in X. destruct T as [|a t l ts A T]; [inversion X; reflexivity|].
    exfalso. cbn in E. revert E. generalize (fold_right insert_q [] ts). intros m. destruct m as [|q m]; cbn; [discriminate|]. destruct (t ?= q)%Q; discriminate.
  Qed.
  Lemma turn_label m x ms T ms' : pair_turn F zero of_int of_repr div beta sci percent m x ms T = Ok ms' -> (0 <= id_rho (fst (fst (fst x))) <= 4)%Z.
  Proof.
    destruct x as [[[f p] orig] g]. unfold pair_turn. cbn [fst snd]. intros E.
    destruct (index _ _ _); [|discriminate]. cbn [bind] in E. destruct (tau_of _ _ _ _ _ _); [|discriminate]. cbn [bind] in E. destruct (last_item _); [|discriminate]. cbn [bind] in E.
    destruct (index _ _ _); [|discriminate]. cbn [bind] in E. destruct (column _ _ _ _ _); [|discriminate]. cbn [bind] in E. destruct (column _ _ _ _ _); [|discriminate]. cbn [bind] in E.
    destruct (label_of _ _ _ _ _) eqn:L; [|discriminate]. unfold label_of in L. destruct (dget Z.eqb labels_pair (id_rho f)) eqn:G; [|discriminate]. clear -G.
    cbn in G. repeat match goal with G : context[(?a =? ?b)%Z] |- _ => destruct (Z.eqb_spec a b); [lia|] end. discriminate.
  Qed.
  Lemma inset_X m x ms ms' : inset_curve F of_int div beta sci m x ms = Ok ms' -> lst_X (snd (fst (fst x))) <> [].
  Proof.
    destruct x as [[[f p] orig] g]. unfold inset_curve. cbn [fst snd]. intros E N. rewrite N in E.
    destruct (tau_of _ _ _ _ _ _); [|discriminate]. cbn [bind] in E. destruct (if Nat.ltb _ _ then _ else _); [|discriminate]. cbn [bind] in E. destruct (column _ _ _ _ _); discriminate.
  Qed.
  Lemma turns_label m x l ms ms' : l <> [] -> for_res (pair_turn F zero of_int of_repr div beta sci percent m x) l ms = Ok ms' -> (0 <= id_rho (fst (fst (fst x))) <= 4)%Z.
  Proof. destruct l as [|T l]; [contradiction|]. intros _ E. cbn in E. destruct (pair_turn _ _ _ _ _ _ _ _ _ _ _ T) eqn:P; [|discriminate]. eapply turn_label. exact P. Qed.

  (** C106: a comparison of a data set from 10 on is drawn only if both sets have results and known texts *)
  Theorem C106_pair_needs f0 fx c : (10 <= id_data f0)%Z -> In c (fst (draw_pair f0 fx)) ->
    latex = Ok tt /\ (0 <= id_rho f0 <= 4)%Z /\ (0 <= id_rho fx <= 4)%Z /\
    exists x y, knows f0 x /\ knows fx y /\ lst_T (snd x) <> [] /\ lst_T (snd y) <> [].
  Proof.
    intros D I. destruct (C106_pair f0 fx c I) as (x & y & oa & ga & ob & gb & K1 & K2 & _ & _ & _ & E). rewrite E in I. clear E.
    unfold Chart_Model.plot_pair, charts_then in I. destruct latex as [[]|]; [|destruct I]. cbn [fst app] in I. split; [reflexivity|].
    unfold pair_Z in I. cbv zeta in I. apply saved_path in I. destruct I as [E _]. cbn [fst snd] in E.
    destruct K1 as (hv & hr & G1 & A1 & A2 & A3 & P1). destruct K2 as (hv' & hr' & G2 & B1 & B2 & B3 & P2).
    pose proof (hashes_keep _ _ _ _ _ G1) as (I1 & R1 & _). pose proof (hashes_keep _ _ _ _ _ G2) as (I2 & R2 & _).
    destruct (for_res _ (lst_T (snd x)) []) as [ms|] eqn:LA; [|discriminate]. cbn [bind] in E. destruct (for_res _ (lst_T (snd y)) ms) as [ms2|] eqn:LB; [|discriminate]. cbn [bind] in E.
    rewrite I1 in E. destruct (Z.leb_spec 10 (id_data f0)); [|lia]. unfold inset in E.
    destruct (inset_curve _ _ _ _ _ 0 _ _) as [j0|] eqn:J0; [|discriminate]. cbn [bind] in E. destruct (inset_curve _ _ _ _ _ 1 _ _) as [j1|] eqn:J1; [|discriminate]. clear E.
    apply inset_X in J0, J1. cbn [fst snd] in J0, J1.
    assert (TA : lst_T (snd x) <> []) by (intros T; apply J0; eapply no_files_no_X; eauto). assert (TB : lst_T (snd y) <> []) by (intros T; apply J1; eapply no_files_no_X; eauto).
    apply turns_label in LA; [|exact TA]. apply turns_label in LB; [|exact TB]. cbn [fst] in LA, LB. rewrite R1 in LA. rewrite R2 in LB.
    split; [exact LA|]. split; [exact LB|]. exists x, y. unfold Chart_Props.knows. split; [|split; [|auto]]; eauto 9.
  Qed.
  (** C106: that the script of the paper draws each of its pairs is wrong: those of the sampling model 11 are never drawn *)
  Theorem C106_iterative_refuted cwd host ds name ds' cs : In name (systems_of Paper) -> host = "nlogn" \/ host = "feynman" ->
    automate_plots (PairsOf Paper) cwd host true ds name = (ds', cs, Ok tt) ->
    (exists d, belongs Paper name d 11) /\
    forall d c, In c cs -> ch_path F c <> (root_of Paper ++ "data_set_" ++ dec d ++ "/plots/Z_orig_D" ++ dec d ++ "_R0_R11.pdf")%string.
  Proof.
    intros N A E. split.
    { cbn [systems_of In] in N. destruct N as [<-|[<-|[<-|[<-|[]]]]]; [exists 11%Z, 0|exists 21%Z, 1|exists 31%Z, 2|exists 41%Z, 3]; (split; [reflexivity|]); split; [cbn; lia|auto|cbn; lia|auto|cbn; lia|auto|cbn; lia|auto]. }
    intros d c I P. destruct (C106_pairs Paper cwd host ds name N A) as (ds1 & cs1 & E1 & C & W & _). rewrite E in E1. injection E1 as <- <-.
    apply C in I. destruct I as (d' & r' & B & J). pose proof (W d' r' c J) as W'. change ("_R0_R11.pdf")%string with ("_R0_R" ++ dec 11 ++ ".pdf")%string in P.
    assert (EQ : (d', r') = (d, 11%Z)) by (apply (pair_file_inj (root_of Paper)); unfold pair_file; rewrite <- W'; exact P). injection EQ as -> ->.
    assert (J2 : In c (fst (draw_pair (at_pair Paper cwd d 0) (at_pair Paper cwd d 11)))) by (rewrite J; left; reflexivity).
    apply C106_pair_needs in J2; [cbn [at_pair build_fs id_rho] in J2; lia|]. cbn [at_pair build_fs id_data]. destruct B as (i & _ & B & _). lia.
  Qed.

  (** C106: the processes of the systems run at the same time; whatever the order in which their pictures are saved, in the end
      every one of them is on disk *)
  Theorem C106_processes s cwd host l : host = "nlogn" \/ host = "feynman" -> Permutation l (List.concat (processes s cwd host true)) ->
    (forall c, In c l <-> exists name ds' cs, In name (systems_of (example_of s)) /\ automate_plots s cwd host true [] name = (ds', cs, Ok tt) /\ In c cs) /\
    (forall c, In c l -> on_disk l (ch_path F c) = Some c) /\
    (forall p, on_disk l p = None <-> ~ In p (map (ch_path F) l)).
  Proof.
    intros A P. assert (R : forall name ds, In name (ex_names (example_of s)) -> exists ds', automate_plots s cwd host true ds name =
      (ds', flat_map (fun x => drawn_by F zero of_int of_repr div beta sci dims H fs listing hashes load latex percent s cwd (root_of (example_of s)) (fst x) (snd x)) (survey_pairs (example_of s) name), Ok tt)).
    { intros name ds N. unfold Gallery_Model.automate_plots. assert (N' : existsb (String.eqb name) (ex_names (example_of s)) = true) by (apply existsb_exists; exists name; split; [exact N|apply String.eqb_refl]).
      rewrite N', (host_ok _ _ A). destruct (attempts _ _ _ _ _ _ _ _ _ _ _ _ _ _ _ s cwd _ true ds _) as [ds' cs] eqn:E.
      pose proof (attempts_charts F zero of_int of_repr div beta sci dims H fs listing hashes load latex percent s cwd (root_of (example_of s)) (survey_pairs (example_of s) name) ds) as C. rewrite E in C. cbn [snd] in C.
      exists ds'. rewrite <- C. reflexivity. }
    assert (Q : List.concat (processes s cwd host true) = flat_map (fun x => drawn_by F zero of_int of_repr div beta sci dims H fs listing hashes load latex percent s cwd (root_of (example_of s)) (fst x) (snd x)) (flat_map (survey_pairs (example_of s)) (ex_names (example_of s)))).
    { unfold Gallery_Model.processes. revert R. generalize (ex_names (example_of s)) as ns. induction ns as [|n ns IH]; intros R; [reflexivity|]. cbn [map List.concat flat_map].
      destruct (R n [] (or_introl eq_refl)) as [ds' E]. rewrite E. cbn [fst snd]. rewrite flat_map_app. f_equal. apply IH. intros name ds I. apply R. right. exact I. }
    assert (ND : NoDup (map (ch_path F) l)).
    { eapply Permutation_NoDup; [apply Permutation_map; symmetry; exact P|]. rewrite Q. apply all_nodup; [apply root_slash|apply pairs_distinct]. }
    split; [|split].
    - intros c. split.
      + intros I. apply (Permutation_in _ P) in I. unfold Gallery_Model.processes in I. apply in_concat in I. destruct I as (cs & I & J). apply in_map_iff in I. destruct I as (name & I & N).
        destruct (R name [] N) as [ds' E]. rewrite E in I. cbn [fst snd] in I. exists name, ds'. eexists. rewrite <- names_same. split; [exact N|]. split; [exact E|]. rewrite I. exact J.
      + intros (name & ds' & cs & N & E & I). apply (Permutation_in _ (Permutation_sym P)). unfold Gallery_Model.processes. apply in_concat. exists cs. split; [|exact I].
        apply in_map_iff. exists name. rewrite names_same. split; [rewrite E; reflexivity|exact N].
    - intros c I. apply on_disk_some; assumption.
    - intros p. apply on_disk_none.
  Qed.
End Gallery.

(** the artificial systems with results for the models 0 and 3 of the data set 12, at 300 K *)
Definition gx_listing (dir : string) : list string :=
  if String.eqb dir "/work/ngraymon/pimc/artificial/data_set_12/rho_0/results/" then ["P12_T300.00_X1000_thermo"; "P20_T300.00_X1000_thermo"]
  else if String.eqb dir "/work/ngraymon/pimc/artificial/data_set_12/rho_3/results/" then ["P12_T300.00_X1000_thermo"] else [].
Definition gx_load (x : prepared) : res (list (string * json) * grid string) :=
  Ok ([("300.00", JObj [("Z_coupled", JInt 7)])], mkGrid string (List.length (lst_P (snd x))) 1 1 (fun i _ _ key => ("v" ++ dec (Z.of_nat i) ++ key)%string)).
Definition gx_num (z : Z) : res string := Ok (dec z).
Definition gx_run (s : script) (name : string) :=
  automate_plots string "0" gx_num (fun r => r) (fun a b => (a ++ "/" ++ b)%string) (fun T => ("b" ++ fmt2 T)%string) dec (fun _ => Ok (2%Z, 3%Z))
    (fun x => x) (fun _ => Some "m") gx_listing (fun _ => Some (Some "m", Some "m")) gx_load (Ok tt) false s "/" "nlogn" true [] name.
(** two comparisons are drawn: the model 0 with itself and with the model 3 *)
Example C106_example :
  map (ch_path string) (snd (fst (gx_run (PairsOf Artificial) "2x2"))) =
    ["/work/ngraymon/pimc/artificial/data_set_12/plots/Z_orig_D12_R0_R0.pdf"; "/work/ngraymon/pimc/artificial/data_set_12/plots/Z_orig_D12_R0_R3.pdf"] /\
  map (ch_marks string) (snd (fst (gx_run (PairsOf Artificial) "2x2"))) =
    [[Curve string ["b300.00/12"; "b300.00/20"] ["v0Z"; "v1Z"] ["v0Z error"; "v1Z error"] Circle "Z (id\_rho=0) (X=1000) diagonal of transformed matrix ";
      Level string "7" "Analytically derived Z from original model";
      Curve string ["b300.00/12"; "b300.00/20"] ["v0Z"; "v1Z"] ["v0Z error"; "v1Z error"] Cross "Z (id\_rho=0) (X=1000) diagonal of transformed matrix ";
      Level string "7" "Analytically derived Z from original model"];
     [Curve string ["b300.00/12"; "b300.00/20"] ["v0Z"; "v1Z"] ["v0Z error"; "v1Z error"] Circle "Z (id\_rho=0) (X=1000) diagonal of transformed matrix ";
      Level string "7" "Analytically derived Z from original model";
      Curve string ["b300.00/12"] ["v0Z"] ["v0Z error"] Cross "Z (id\_rho=3) (X=1000) wrong re-weighted iterative model";
      Level string "7" "Analytically derived Z from original model"]].
Proof. vm_compute. split; reflexivity. Qed.
(** without results the other script saves three empty pictures for each pair *)
Example C106_example_singles :
  List.length (snd (fst (gx_run SinglesOfPaper "jahnteller"))) = 72 /\ map (ch_path string) (firstn 3 (snd (fst (gx_run SinglesOfPaper "jahnteller")))) =
    ["/work/ngraymon/pimc/paper_2018/data_set_41/rho_0/plots/Z_D41_R0.pdf"; "/work/ngraymon/pimc/paper_2018/data_set_41/rho_0/plots/E_D41_R0.pdf"; "/work/ngraymon/pimc/paper_2018/data_set_41/rho_0/plots/Cv_D41_R0.pdf"].
Proof. vm_compute. split; reflexivity. Qed.
Print Assumptions C106_refused.
Print Assumptions C106_no_root.
Print Assumptions C106_pairs.
Print Assumptions C106_singles.
Print Assumptions C106_pair.
Print Assumptions C106_single.
Print Assumptions C106_pair_needs.
Print Assumptions C106_iterative_refuted.
Print Assumptions C106_processes.
