(** C16, C17, C53: names of result files. *)
From Coq Require Import Sorting.Sorted.
From Verif Require Import Common PyStr_Model PyStr_Proofs FileName_Model FileName_Proofs.
Local Open Scope string_scope.
Local Open Scope nat_scope.

(** C16: for every directory part [dir] without the separators, the extraction
    functions return the bead count, the temperature shown in the name (two
    decimals, within 1/200 of the real one) and the job number. *)
Theorem C16_extract_pimc dir P T J :
  (0 <= P)%Z -> (0 <= Qnum T)%Z ->
  all_chars (fun c => negb (Ascii.eqb c "P")) dir = true ->
  contains "_T" dir = false -> contains "_J" dir = false ->
  extract_bead (dir ++ pimc_file P T J) = Ok P /\
  (exists q, extract_temperature_pimc (dir ++ pimc_file P T J) = Ok q /\ (q == hundredths T # 100)%Q) /\
  extract_job_pimc (dir ++ pimc_file P T J) = Ok J.
Proof. exact (extract_pimc dir P T J). Qed.
Print Assumptions C16_extract_pimc.

Theorem C16_shown_temperature T : (Qabs.Qabs (T - (hundredths T # 100)) <= 1 # 200)%Q.
Proof. exact (hundredths_error T). Qed.
Print Assumptions C16_shown_temperature.

Example C16_pimc_example :
  extract_bead ("/work/data_set_11/rho_0/results/" ++ pimc_file 12 (300 # 1) 3) = Ok 12%Z /\
  extract_job_pimc ("/work/data_set_11/rho_0/results/" ++ pimc_file 12 (300 # 1) 3) = Ok 3%Z /\
  pimc_file 12 (300 # 1) 3 = "P12_T300.00_J3_data_points.npz" /\
  contains "_T" "/work/data_set_11/rho_0/results/" = false.
Proof. vm_compute. auto. Qed.

Theorem C16_extract_thermo dir P T X :
  (0 <= P)%Z -> (0 <= Qnum T)%Z ->
  all_chars (fun c => negb (Ascii.eqb c "P")) dir = true ->
  contains "_T" dir = false -> contains "_X" dir = false ->
  extract_bead (dir ++ thermo_file P T X) = Ok P /\
  (exists q, extract_temperature_thermo (dir ++ thermo_file P T X) = Ok q /\ (q == hundredths T # 100)%Q) /\
  extract_sample_thermo (dir ++ thermo_file P T X) = Ok X.
Proof. exact (extract_thermo dir P T X). Qed.
Print Assumptions C16_extract_thermo.

Example C16_thermo_example :
  thermo_file 64 (1001 # 4) 100000 = "P64_T250.25_X100000_thermo" /\
  extract_sample_thermo ("r/" ++ thermo_file 64 (1001 # 4) 100000) = Ok 100000%Z.
Proof. vm_compute. auto. Qed.

Theorem C16_extract_sos dir B : contains "_B" dir = false -> extract_basis_sos (dir ++ sos_file B) = Ok B.
Proof. exact (extract_basis_sos_ok dir B). Qed.
Print Assumptions C16_extract_sos.

Example C16_sos_example : extract_basis_sos "/d/rho_1/parameters/sos_B80.json" = Ok 80%Z.
Proof. reflexivity. Qed.

(** the sorted list of bead counts of a directory of result files *)
Theorem C16_bead_list dir (l : list (Z * Q * Z)) :
  all_chars (fun c => negb (Ascii.eqb c "P")) dir = true ->
  Forall (fun x => (0 <= fst (fst x))%Z) l ->
  exists r, extract_bead_list (map (fun x => (dir ++ pimc_file (fst (fst x)) (snd (fst x)) (snd x))%string) l) = Ok r /\
    StronglySorted Z.lt r /\ forall P, In P r <-> exists T J, In (P, T, J) l.
Proof. exact (extract_bead_list_ok dir l). Qed.
Print Assumptions C16_bead_list.

(** the basis sizes for which the sum over states is available for both the
    model and the sampling model *)
Theorem C16_sos_basis_list dv dr (vs rs : list Z) :
  contains "_B" dv = false -> contains "_B" dr = false ->
  exists r, extract_sos_basis_list (map (fun B => (dv ++ sos_file B)%string) vs) (map (fun B => (dr ++ sos_file B)%string) rs) = Ok r /\
    StronglySorted Z.lt r /\ forall B, In B r <-> In B vs /\ In B rs.
Proof.
  intros Hv Hr. unfold extract_sos_basis_list.
  assert (HM : forall d, contains "_B" d = false -> forall l, map_res extract_basis_sos (map (fun B => (d ++ sos_file B)%string) l) = Ok l).
  { intros d Hd l. apply map_res_spec. induction l; simpl; constructor; auto. apply extract_basis_sos_ok; auto. }
  rewrite !HM by auto. cbn [bind]. eexists. split; [reflexivity|].
  destruct (sorted_set_spec (filter (fun z => existsb (Z.eqb z) rs) vs)) as [S I]. split; auto.
  intros B. rewrite I, filter_In, existsb_exists. split.
  - intros (H1 & x & H2 & E). apply Z.eqb_eq in E. subst. auto.
  - intros (H1 & H2). split; auto. exists B. split; auto. apply Z.eqb_refl.
Qed.
Print Assumptions C16_sos_basis_list.

Example C16_sos_basis_list_example :
  extract_sos_basis_list ["v/sos_B80.json"; "v/sos_B40.json"; "v/sos_B20.json"] ["r/sos_B20.json"; "r/sos_B60.json"; "r/sos_B80.json"] = Ok [20; 80]%Z.
Proof. reflexivity. Qed.

Example C16_bead_list_example :
  extract_bead_list ["r/P20_T300.00_J0_data_points.npz"; "r/P12_T300.00_J0_data_points.npz"; "r/P20_T300.00_J1_data_points.npz"]
  = Ok [12; 20]%Z.
Proof. reflexivity. Qed.

(** finding: a directory part with a capital P before the name makes the bead
    extraction fail, for every name *)
Theorem C16_capital_P_refuted d1 d2 name :
  all_chars (fun c => negb (Ascii.eqb c "P")) d1 = true ->
  all_chars (fun c => negb (Ascii.eqb c "P")) d2 = true ->
  match d2 with String c _ => is_digit c = false /\ is_space c = false /\ c <> "+"%char /\ c <> "-"%char | EmptyString => False end ->
  contains "_T" d2 = false ->
  extract_bead (d1 ++ "P" ++ d2 ++ "/P" ++ name) = Raise ValueError.
Proof. exact (extract_bead_dir_P d1 d2 name). Qed.
Print Assumptions C16_capital_P_refuted.

Example C16_capital_P_example :
  extract_bead "/home/user/Pibronic/data_set_0/rho_0/results/P12_T300.00_J0_data_points.npz" = Raise ValueError.
Proof. reflexivity. Qed.

(** finding: the trotter extraction never works *)
Theorem C16_trotter_refuted dir P B : extract_bead_trotter (dir ++ trotter_file P B) = Raise TypeError.
Proof. exact (extract_trotter_fails dir P B). Qed.
Print Assumptions C16_trotter_refuted.

Example C16_trotter_example : extract_bead_trotter "/d/trotter_P20_B10.json" = Raise TypeError.
Proof. reflexivity. Qed.

(** C17 *)
Theorem C17_pimc_name P T J P' T' J' :
  (0 <= Qnum T)%Z -> (0 <= Qnum T')%Z ->
  (pimc_file P T J = pimc_file P' T' J' <-> P = P' /\ hundredths T = hundredths T' /\ J = J').
Proof. exact (pimc_file_inj P T J P' T' J'). Qed.
Print Assumptions C17_pimc_name.

Theorem C17_thermo_name P T X P' T' X' :
  (0 <= Qnum T)%Z -> (0 <= Qnum T')%Z ->
  (thermo_file P T X = thermo_file P' T' X' <-> P = P' /\ hundredths T = hundredths T' /\ X = X').
Proof. exact (thermo_file_inj P T X P' T' X'). Qed.
Print Assumptions C17_thermo_name.

Theorem C17_temperature_resolution T T' : hundredths T = hundredths T' -> (Qabs.Qabs (T - T') <= 1 # 100)%Q.
Proof. exact (hundredths_close T T'). Qed.
Print Assumptions C17_temperature_resolution.

Example C17_example :
  pimc_file 12 (300 # 1) 0 <> pimc_file 12 (30001 # 100) 0 /\
  pimc_file 12 (300 # 1) 0 = pimc_file 12 (300001 # 1000) 0 /\
  pimc_file 1 (2300 # 1) 0 <> pimc_file 12 (300 # 1) 0.
Proof. vm_compute. repeat split; congruence. Qed.

Theorem C17_sos_name B B' : sos_file B = sos_file B' -> B = B'.
Proof. exact (sos_file_inj B B'). Qed.
Print Assumptions C17_sos_name.

Theorem C17_trotter_name P B P' B' : trotter_file P B = trotter_file P' B' -> P = P' /\ B = B'.
Proof. exact (trotter_file_inj P B P' B'). Qed.
Print Assumptions C17_trotter_name.

Theorem C17_kinds_disjoint P T J P' T' X B P2 B2 :
  pimc_file P T J <> thermo_file P' T' X /\ pimc_file P T J <> sos_file B /\ pimc_file P T J <> trotter_file P2 B2 /\
  thermo_file P' T' X <> sos_file B /\ thermo_file P' T' X <> trotter_file P2 B2 /\ sos_file B <> trotter_file P2 B2.
Proof. exact (kinds_disjoint P T J P' T' X B P2 B2). Qed.
Print Assumptions C17_kinds_disjoint.

Example C17_names_example :
  sos_file 80 = "sos_B80.json" /\ trotter_file 20 10 = "trotter_P20_B10.json" /\ sos_file 80 <> sos_file 8 /\
  trotter_file 1 10 <> trotter_file 11 0 /\ thermo_file 12 (300 # 1) 100 = "P12_T300.00_X100_thermo".
Proof. vm_compute. repeat split; congruence. Qed.

Theorem C17_training_names P T J P' T' J' i k :
  (0 <= Qnum T)%Z -> (0 <= Qnum T')%Z -> i < 3 -> k < 3 ->
  nth i (training_files P T J) "" = nth k (training_files P' T' J') "" ->
  i = k /\ P = P' /\ hundredths T = hundredths T' /\ J = J'.
Proof. exact (training_disjoint P T J P' T' J' i k). Qed.
Print Assumptions C17_training_names.

Theorem C17_training_not_results P T J P' T' J' i :
  i < 3 -> nth i (training_files P T J) "" <> pimc_file P' T' J'.
Proof. exact (training_not_pimc P T J P' T' J' i). Qed.
Print Assumptions C17_training_not_results.

Theorem C17_output_name D R P T J D' R' P' T' J' :
  (0 <= Qnum T)%Z -> (0 <= Qnum T')%Z ->
  output_file D R P T J = output_file D' R' P' T' J' ->
  D = D' /\ R = R' /\ P = P' /\ hundredths T = hundredths T' /\ J = J'.
Proof. exact (output_file_inj D R P T J D' R' P' T' J'). Qed.
Print Assumptions C17_output_name.

Example C17_output_example :
  output_file 11 0 12 (300 # 1) 4711 = "D11_R0_P12_T300.00.o4711" /\
  training_files 12 (300 # 1) 7 = ["P12_T300.00_J7_training_data_input.npz"; "P12_T300.00_J7_training_data_g_output.npz";
                                    "P12_T300.00_J7_training_data_rho_output.npz"].
Proof. vm_compute. auto. Qed.

(** two jobs write to the same file only if bead count, temperature to two
    decimals and job number agree; a job without number counts as job 0 *)
Theorem C17_same_result_path root s s' P P' T T' j j' p :
  (0 <= Qnum T)%Z -> (0 <= Qnum T')%Z ->
  result_path root s P T j = Ok p -> result_path root s' P' T' j' = Ok p ->
  P = P' /\ hundredths T = hundredths T' /\
  match j with Some x => x | None => 0%Z end = match j' with Some x => x | None => 0%Z end.
Proof. exact (result_path_inj root s s' P P' T T' j j' p). Qed.
Print Assumptions C17_same_result_path.

Theorem C17_result_path root s P T j :
  s <> 0%Z -> ends_with_slash root = true ->
  result_path root s P T j =
    Ok (root ++ "P" ++ dec P ++ "_T" ++ fmt2 T ++ "_J" ++ dec (match j with Some x => x | None => 0%Z end) ++ "_data_points.npz").
Proof. exact (result_path_ok root s P T j). Qed.
Print Assumptions C17_result_path.

Example C17_result_path_example :
  result_path "/d/results/" 100 12 (300 # 1) None = Ok "/d/results/P12_T300.00_J0_data_points.npz" /\
  result_path "/d/results/" 0 12 (300 # 1) None = Raise AssertionError.
Proof. vm_compute. auto. Qed.

(** C53: the analysis of (P, T) reads exactly the files written for that bead
    count and that temperature (to two decimals), whatever other result files
    are in the directory *)
Theorem C53_selected_files P T (l : list (Z * Q * Z)) :
  (0 <= Qnum T)%Z -> Forall (fun x => (0 <= Qnum (snd (fst x)))%Z) l ->
  select_pimc_files P T (map (fun x => pimc_file (fst (fst x)) (snd (fst x)) (snd x)) l) =
  map (fun x => pimc_file (fst (fst x)) (snd (fst x)) (snd x))
    (filter (fun x => (P =? fst (fst x))%Z && (hundredths T =? hundredths (snd (fst x)))%Z) l).
Proof. exact (select_pimc_files_map P T l). Qed.
Print Assumptions C53_selected_files.

Theorem C53_other_kinds_not_selected P T P' T' X B P2 B2 n :
  In n [thermo_file P' T' X; sos_file B; trotter_file P2 B2] -> select_pimc_files P T [n] = [].
Proof. exact (select_other_kinds P T P' T' X B P2 B2 n). Qed.
Print Assumptions C53_other_kinds_not_selected.

Example C53_example :
  select_pimc_files 12 (300 # 1) ["P12_T300.00_J0_data_points.npz"; "P12_T300.00_J17_data_points.npz"; "P112_T300.00_J0_data_points.npz";
     "P12_T300.01_J0_data_points.npz"; "P12_T300.00_X100_thermo"]
  = ["P12_T300.00_J0_data_points.npz"; "P12_T300.00_J17_data_points.npz"].
Proof. reflexivity. Qed.
