(** C93: the lists of files and parameters *)
From Coq Require Import QArith Lia.
From Verif Require Import Common PyStr_Model PyStr_Proofs FileName_Model FileName_Proofs FileName_Props FileStruct_Model Analysis_Model Analysis_Proofs Plot_Spec Plot_Proofs Plot_Model Plot_Props Params_Model Params_Proofs Analysis_Props Zmat_Proofs.
Local Open Scope string_scope.
Local Open Scope list_scope.
Local Open Scope nat_scope.

(** C93: the files of each kind; for the sums over states, whatever the argument is *)
Theorem C93_files ls f lp lj lv lr : retrive_all_file_paths ls f = (lp, lj, lv, lr) ->
  retrive_file_paths_for_jackknife ls f = (lp, lv, lr) /\
  (forall p, In p lp <-> exists a b c, In ("P" ++ a ++ "_T" ++ b ++ "_J" ++ c ++ "_data_points.npz")%string (ls (path_rho_results f)) /\ p = (path_rho_results f ++ "P" ++ a ++ "_T" ++ b ++ "_J" ++ c ++ "_data_points.npz")%string) /\
  (forall p, In p lj <-> exists a b c, In ("P" ++ a ++ "_T" ++ b ++ "_X" ++ c ++ "_thermo")%string (ls (path_rho_results f)) /\ p = (path_rho_results f ++ "P" ++ a ++ "_T" ++ b ++ "_X" ++ c ++ "_thermo")%string) /\
  (forall p, In p lv <-> exists a, In ("sos_B" ++ a ++ ".json")%string (ls (path_vib_params f)) /\ p = (path_vib_params f ++ "sos_B" ++ a ++ ".json")%string) /\
  (forall p, In p lr <-> exists a, In ("sos_B" ++ a ++ ".json")%string (ls (path_rho_params f)) /\ p = (path_rho_params f ++ "sos_B" ++ a ++ ".json")%string) /\
  (forall B, retrive_sos_coupled_file_list ls f B = lv /\ retrive_sos_sampling_file_list ls f B = lr).
Proof.
  intros E. injection E as <- <- <- <-. split; [reflexivity|]. split; [|split; [|split; [|split; [|split; reflexivity]]]].
  - intros p. rewrite (C79_listing (path_rho_results f) (ls (path_rho_results f)) p). unfold pimc. split.
    + intros (a & b & c & I & ->). exists a, b, c. split; [exact I|reflexivity].
    + intros (a & b & c & I & ->). exists a, b, c. split; [exact I|reflexivity].
  - intros p. apply C91_listing.
  - intros p. unfold retrive_sos_coupled_file_list, sos_file_list. rewrite in_map_iff. split.
    + intros (n & <- & I). apply filter_In in I. destruct I as [I G]. apply glob_more in G. destruct G as (a & y & -> & G). apply glob_one in G. subst y. exists a. split; [exact I|reflexivity].
    + intros (a & I & ->). eexists. split; [reflexivity|]. apply filter_In. split; [exact I|]. apply glob_more. exists a, ".json". split; [reflexivity|]. apply glob_one. reflexivity.
  - intros p. unfold retrive_sos_sampling_file_list, sos_file_list. rewrite in_map_iff. split.
    + intros (n & <- & I). apply filter_In in I. destruct I as [I G]. apply glob_more in G. destruct G as (a & y & -> & G). apply glob_one in G. subst y. exists a. split; [exact I|reflexivity].
    + intros (a & I & ->). eexists. split; [reflexivity|]. apply filter_In. split; [exact I|]. apply glob_more. exists a, ".json". split; [reflexivity|]. apply glob_one. reflexivity.
Qed.
(** "the files for a basis size" *)
Theorem C93_basis_refuted : ~ (forall ls f B p, In p (retrive_sos_coupled_file_list ls f B) -> p = (path_vib_params f ++ "sos_B" ++ B ++ ".json")%string).
Proof. intros H. specialize (H (fun _ => ["sos_B20.json"]) (build_fs "/" "/w" 1 0) "80" _ (or_introl eq_refl)). vm_compute in H. discriminate. Qed.

(** no Trotter file can be read *)
Theorem C93_trotter : extract_trotter_paramater_list [] = Ok [] /\
  forall dir P B rest, extract_trotter_paramater_list ((dir ++ "trotter_P" ++ dec P ++ "_B" ++ dec B ++ ".json")%string :: rest) = Raise TypeError.
Proof. split; [reflexivity|]. intros dir P B rest. unfold extract_trotter_paramater_list. cbn [for_res]. change (dir ++ "trotter_P" ++ dec P ++ "_B" ++ dec B ++ ".json")%string with (dir ++ trotter_file P B)%string. rewrite C16_trotter_refuted. reflexivity. Qed.

(** basis sizes in both directories *)
Definition shared (vs rs : list Z) (r : list Z) : Prop := increasing_Z r /\ forall B, In B r <-> In B vs /\ In B rs.
Definition pimc_path (dir : string) (x : entry) : string := (dir ++ pimc_file (fst (fst x)) (snd (fst x)) (snd x))%string.
Lemma basis_ok dv dr vs rs : (forall a b, dv <> a ++ "_B" ++ b)%string -> (forall a b, dr <> a ++ "_B" ++ b)%string ->
  exists r, extract_sos_basis_list (map (fun B => (dv ++ sos_file B)%string) vs) (map (fun B => (dr ++ sos_file B)%string) rs) = Ok r /\ shared vs rs r.
Proof.
  intros A B. destruct (C16_sos_basis_list dv dr vs rs (no_contains _ _ A) (no_contains _ _ B)) as (r & E & S' & I). exists r. split; [exact E|]. split; [apply sorted_increasing_Z; exact S'|exact I].
Qed.
(** C93: beads, temperatures and basis sizes, each value once in increasing order *)
Theorem C93_lists dir l dv dr vs rs :
  ~ In "P"%char (list_ascii_of_string dir) -> (forall a b, dir <> a ++ "_T" ++ b)%string -> Forall entry_ok l ->
  (forall a b, dv <> a ++ "_B" ++ b)%string -> (forall a b, dr <> a ++ "_B" ++ b)%string ->
  exists Ps Ts Bs, extract_parameter_lists (map (pimc_path dir) l) (map (fun B => (dv ++ sos_file B)%string) vs) (map (fun B => (dr ++ sos_file B)%string) rs) = Ok (Ps, Ts, Bs) /\
    increasing_Z Ps /\ (forall P, In P Ps <-> exists T J, In (P, T, J) l) /\ shown l Ts /\ shared vs rs Bs.
Proof.
  intros DP DT O HV HR. rewrite Forall_forall in O. destruct (basis_ok dv dr vs rs HV HR) as (Bs & EB & SB).
  assert (DP' : all_chars (fun c => negb (Ascii.eqb c "P")) dir = true) by (apply all_chars_iff; intros c I; apply negb_true_iff, Ascii.eqb_neq; intros ->; exact (DP I)).
  destruct (extract_bead_list_ok dir l DP') as (Ps & EP & SP & IP); [apply Forall_forall; intros x I; apply (O x I)|].
  destruct (temps_ok extract_temperature_pimc (pimc_path dir) l) as (ts & ET & ST).
  { intros x I. apply extract_temperature_pimc_ok; [apply (O x I)|apply no_contains; exact DT]. }
  exists Ps, (fold_right insert_q [] ts), Bs. split; [|split; [apply sorted_increasing_Z; exact SP|split; [exact IP|split; [exact ST|exact SB]]]].
  unfold extract_parameter_lists, extract_temperature_list. rewrite EB. cbn [bind].
  assert (EP' : extract_bead_list (map (pimc_path dir) l) = Ok Ps) by exact EP. rewrite EP', ET. reflexivity.
Qed.
(** C93: the parameters of the analysed results; a capital P in the directory does no harm here unless it starts a part *)
Theorem C93_pimc d l dv dr vs rs :
  (forall a b, d <> a ++ "/P" ++ b)%string -> (forall a b, (d ++ "/")%string <> a ++ "_T" ++ b)%string -> (forall a b, (d ++ "/")%string <> a ++ "_X" ++ b)%string -> Forall entry_ok l ->
  (forall a b, dv <> a ++ "_B" ++ b)%string -> (forall a b, dr <> a ++ "_B" ++ b)%string ->
  exists v, extract_pimc_parameters (map (entry_path (d ++ "/")) l) (map (fun B => (dv ++ sos_file B)%string) vs) (map (fun B => (dr ++ sos_file B)%string) rs) = Ok v /\
    increasing_Z (pimc_beads v) /\ (forall P, In P (pimc_beads v) <-> exists T X, In (P, T, X) l) /\
    shown l (temperatures v) /\ shared vs rs (basis_fxns v) /\
    exists Xs, samples v = Some Xs /\ increasing_Z Xs /\ forall X, In X Xs <-> exists P T, In (P, T, X) l.
Proof.
  intros DP DT DX O HV HR. rewrite Forall_forall in O. destruct (basis_ok dv dr vs rs HV HR) as (Bs & EB & SB).
  assert (DT' : contains "_T" (d ++ "/") = false) by (apply no_contains; exact DT).
  assert (DX' : contains "_X" (d ++ "/") = false) by (apply no_contains; exact DX).
  destruct (temps_ok (fun path => do s <- between "_T" "_X" path; py_float_str s) (entry_path (d ++ "/")) l) as (ts & ET & ST).
  { intros x I. apply (extract_temperature_thermo_ok (d ++ "/")); [apply (O x I)|exact DT']. }
  pose proof (ints_ok (fun path => do s <- between "_X" "_thermo" path; py_int_str s) (entry_path (d ++ "/")) snd l (fun x I => extract_sample_thermo_ok _ _ _ _ DX')) as EX.
  pose proof (ints_ok (fun path => do s <- between "/P" "_T" path; py_int_str s) (entry_path (d ++ "/")) (fun x => fst (fst x)) l (fun x I => bead_slash _ _ _ _ (no_contains _ _ DP))) as EP.
  eexists. split; [unfold extract_pimc_parameters; rewrite EB; cbn [bind]; rewrite ET; cbn [bind]; rewrite EX; cbn [bind]; rewrite EP; reflexivity|]. cbn [pimc_beads basis_fxns temperatures samples].
  destruct (beads_spec (map (fun x : entry => fst (fst x)) l)) as [B1 B2]. destruct (sorted_set_spec (map snd l)) as [X1 X2].
  split; [exact B1|]. split.
  { intros P. rewrite B2, in_map_iff. split; [intros ([[P' T] X] & <- & I); eauto|intros (T & X & I); exists (P, T, X); auto]. }
  split; [exact ST|]. split; [exact SB|]. eexists. split; [reflexivity|]. split; [apply sorted_increasing_Z; exact X1|].
  intros X. rewrite X2, in_map_iff. split; [intros ([[P T] X'] & <- & I); eauto|intros (P & T & I); exists (P, T, X); auto].
Qed.
(** C93: despite its name, that function can not take the results of the simulations *)
Theorem C93_pimc_names dir x l dv dr vs rs : (forall a b, dir <> a ++ "_T" ++ b)%string -> entry_ok x ->
  (forall a b, dv <> a ++ "_B" ++ b)%string -> (forall a b, dr <> a ++ "_B" ++ b)%string ->
  extract_pimc_parameters (pimc_path dir x :: l) (map (fun B => (dv ++ sos_file B)%string) vs) (map (fun B => (dr ++ sos_file B)%string) rs) = Raise ValueError.
Proof.
  intros DT (_ & O) HV HR. destruct (basis_ok dv dr vs rs HV HR) as (Bs & EB & _). unfold extract_pimc_parameters. rewrite EB. cbn [bind map_res].
  unfold pimc_path. rewrite temp_of_pimc by (auto; apply no_contains; exact DT). reflexivity.
Qed.
(** C93: the parameters of the results of simulations *)
Theorem C93_jackknife d l dv dr vs rs :
  (forall a b, d <> a ++ "results/P" ++ b)%string -> (forall a b, (d ++ "results/")%string <> a ++ "_T" ++ b)%string -> Forall entry_ok l ->
  (forall a b, dv <> a ++ "_B" ++ b)%string -> (forall a b, dr <> a ++ "_B" ++ b)%string ->
  exists v, extract_jackknife_parameters (map (pimc_path (d ++ "results/")) l) (map (fun B => (dv ++ sos_file B)%string) vs) (map (fun B => (dr ++ sos_file B)%string) rs) = Ok v /\
    increasing_Z (pimc_beads v) /\ (forall P, In P (pimc_beads v) <-> exists T J, In (P, T, J) l) /\
    shown l (temperatures v) /\ shared vs rs (basis_fxns v) /\ samples v = None.
Proof.
  intros DP DT O HV HR. rewrite Forall_forall in O. destruct (basis_ok dv dr vs rs HV HR) as (Bs & EB & SB).
  destruct (temps_ok (fun path => do s <- between "_T" "_J" path; py_float_str s) (pimc_path (d ++ "results/")) l) as (ts & ET & ST).
  { intros x I. apply (extract_temperature_pimc_ok (d ++ "results/")); [apply (O x I)|apply no_contains; exact DT]. }
  pose proof (ints_ok (fun path => do s <- between "results/P" "_T" path; py_int_str s) (pimc_path (d ++ "results/")) (fun x => fst (fst x)) l (fun x I => bead_results _ _ _ _ (no_contains _ _ DP))) as EP.
  eexists. split; [unfold extract_jackknife_parameters; rewrite EB; cbn [bind]; rewrite ET; cbn [bind]; rewrite EP; reflexivity|]. cbn [pimc_beads basis_fxns temperatures samples].
  destruct (beads_spec (map (fun x : entry => fst (fst x)) l)) as [B1 B2]. split; [exact B1|]. split; [|split; [exact ST|split; [exact SB|reflexivity]]].
  intros P. rewrite B2, in_map_iff. split; [intros ([[P' T] X] & <- & I); eauto|intros (T & X & I); exists (P, T, X); auto].
Qed.

(** ** examples *)
Example C93_files_ex :
  retrive_all_file_paths (fun dir => if String.eqb dir "/w/data_set_1/rho_0/results/" then ["P12_T300.00_J1_data_points.npz"; "P12_T300.00_X10_thermo"] else if String.eqb dir "/w/data_set_1/parameters/" then ["sos_B20.json"; "x"] else []) (build_fs "/" "/w" 1 0)
  = (["/w/data_set_1/rho_0/results/P12_T300.00_J1_data_points.npz"], ["/w/data_set_1/rho_0/results/P12_T300.00_X10_thermo"], ["/w/data_set_1/parameters/sos_B20.json"], []).
Proof. vm_compute. reflexivity. Qed.
Lemma ex_none p s : contains p s = false -> forall a b, s <> (a ++ p ++ b)%string.
Proof. intros H a b E. assert (K : contains p s = true) by (apply contains_spec; eauto). congruence. Qed.
(** the directory has a capital letter P, which extract_bead could not stand *)
Example C93_pimc_ex :
  extract_bead ("/home/MyPibronic/rho_0/results/" ++ thermo_file 12 300 10) = Raise ValueError /\
  extract_pimc_parameters (map (entry_path "/home/MyPibronic/rho_0/results/") [(20%Z, 300%Q, 10%Z); (12%Z, 300%Q, 10%Z); (20%Z, 250%Q, 10%Z)]) ["v/sos_B80.json"; "v/sos_B20.json"] ["r/sos_B20.json"] =
    Ok (mkValues [12; 20]%Z [20]%Z [25000 # 100; 30000 # 100]%Q (Some [10]%Z)).
Proof. split; vm_compute; reflexivity. Qed.
Example C93_pimc_hyp : (forall a b, "/home/MyPibronic/rho_0/results" <> a ++ "/P" ++ b)%string /\ Forall entry_ok [(20%Z, 300%Q, 10%Z); (12%Z, 300%Q, 10%Z); (20%Z, 250%Q, 10%Z)] /\ (forall a b, "v/" <> a ++ "_B" ++ b)%string.
Proof. split; [apply ex_none; reflexivity|]. split; [repeat constructor; cbn; lia|apply ex_none; reflexivity]. Qed.
Example C93_lists_ex : extract_parameter_lists ["r/P20_T300.00_J0_data_points.npz"; "r/P12_T300.00_J0_data_points.npz"] ["v/sos_B80.json"; "v/sos_B20.json"] ["r/sos_B20.json"] = Ok ([12; 20]%Z, [30000 # 100]%Q, [20]%Z).
Proof. vm_compute. reflexivity. Qed.
Example C93_jackknife_ex :
  extract_jackknife_parameters (map (pimc_path "/Pibronic/results/") [(20%Z, 300%Q, 1%Z); (12%Z, 300%Q, 2%Z)]) [] [] = Ok (mkValues [12; 20]%Z [] [30000 # 100]%Q None) /\
  (forall a b, "/Pibronic/" <> a ++ "results/P" ++ b)%string /\ (forall a b, ("/Pibronic/" ++ "results/")%string <> a ++ "_T" ++ b)%string.
Proof. split; [vm_compute; reflexivity|]. split; apply ex_none; reflexivity. Qed.
Example C93_pimc_names_ex : extract_pimc_parameters ["r/P20_T300.00_J0_data_points.npz"] [] [] = Raise ValueError.
Proof. vm_compute. reflexivity. Qed.
Example C93_trotter_ex : extract_trotter_paramater_list ["/d/trotter_P20_B10.json"] = Raise TypeError.
Proof. reflexivity. Qed.

Print Assumptions C93_files.
Print Assumptions C93_basis_refuted.
Print Assumptions C93_trotter.
Print Assumptions C93_lists.
Print Assumptions C93_pimc.
Print Assumptions C93_pimc_names.
Print Assumptions C93_jackknife.
