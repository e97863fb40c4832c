(** Further theorems on paths, hashes and templates: C13, C14, C54, C55, C56. *)
From Verif Require Import Common Common_Proofs PyStr_Model PyStr_Proofs FileName_Model FileStruct_Model FileStruct_Proofs.
Local Open Scope string_scope.
Local Open Scope nat_scope.

(** C14: POSIX: two leading slashes are kept, more become one; the empty path is "." *)
Theorem C14_leading_slashes s n : String.prefix "/" s = false ->
  initial_slashes (Nat.iter n (String "/"%char) s) = match n with 0 => 0 | 2 => 2 | _ => 1 end.
Proof.
  intros H. unfold initial_slashes. destruct n as [|[|[|n]]]; cbn [Nat.iter nat_rect].
  - rewrite H. reflexivity.
  - cbn [String.prefix]. destruct s as [|c s]; [reflexivity|]. cbn [String.prefix] in H |- *.
    destruct (ascii_dec "/" "/") as [_|N]; [|congruence]. destruct (ascii_dec "/" c) as [E|E]; [|reflexivity].
    destruct s; discriminate.
  - cbn [String.prefix]. destruct (ascii_dec "/" "/") as [_|N]; [|congruence]. cbn [String.prefix] in *. destruct s as [|c s]; [reflexivity|].
    cbn [String.prefix] in H |- *. destruct (ascii_dec "/" c) as [E|E]; [destruct s; discriminate|reflexivity].
  - cbn [String.prefix]. destruct (ascii_dec "/" "/") as [_|N]; [|congruence]. match goal with |- context [String.prefix "" ?t] => destruct t end; reflexivity.
Qed.
Theorem C14_normpath_cases : normpath "" = "." /\ normpath "a/.." = "." /\ normpath "//a/./b//../c" = "//a/c" /\ normpath "///a" = "/a" /\
  normpath "/../a" = "/a" /\ normpath "../../a" = "../../a".
Proof. vm_compute. repeat split. Qed.
Example C14_slashes_example : initial_slashes "//server/data" = 2 /\ initial_slashes "///server/data" = 1.
Proof. split; [apply (C14_leading_slashes "server/data" 2)|apply (C14_leading_slashes "server/data" 3)]; reflexivity. Qed.

(** C13: comparing hashes: a hash must have been computed, and the file must contain one *)
Theorem C13_comparison_raises f d :
  (hash_rho f = None -> valid_vib_and_rho_hashes f d = Raise AssertionError) /\
  (forall h, hash_rho f = Some h -> dget String.eqb d "hash_rho" = None -> valid_vib_and_rho_hashes f d = Raise KeyError) /\
  (forall h, hash_rho f = Some h -> dget String.eqb d "hash_rho" = Some h -> hash_vib f = None -> valid_vib_and_rho_hashes f d = Raise AssertionError) /\
  (forall h h', hash_rho f = Some h -> dget String.eqb d "hash_rho" = Some h -> hash_vib f = Some h' -> dget String.eqb d "hash_vib" = None ->
     valid_vib_and_rho_hashes f d = Raise KeyError) /\
  (forall h x, hash_rho f = Some h -> dget String.eqb d "hash_rho" = Some x -> x <> h -> valid_vib_and_rho_hashes f d = Ok false).
Proof.
  unfold valid_vib_and_rho_hashes, valid_rho_hash, valid_vib_hash, valid_hash. split; [intros ->; reflexivity|].
  split; [intros h -> ->; reflexivity|]. split; [intros h -> -> ->; cbn; rewrite String.eqb_refl; reflexivity|].
  split; [intros h h' -> -> -> ->; cbn; rewrite String.eqb_refl; reflexivity|].
  intros h x -> -> N. cbn. apply String.eqb_neq in N. rewrite N. reflexivity.
Qed.
Example C13_raises_example : valid_vib_and_rho_hashes (set_hash_rho (build_fs "/" "/w" 1 0) "ab") [("hash_rho", "ab"); ("hash_vib", "cd")] = Raise AssertionError.
Proof. apply (proj1 (proj2 (proj2 (C13_comparison_raises _ _)))) with (h := "ab"); reflexivity. Qed.

(** C54: the names that are looked for *)
Theorem C54_names isdir_rel : directories_exist isdir_rel = true <->
  isdir_rel "path_data" = true /\ isdir_rel "path_es" = true /\ isdir_rel "path_root" = true /\
  (forall k s, In k ["rho"; "vib"] -> In s ["params"; "results"; "output"; "plots"] -> isdir_rel ("path_" ++ k ++ "_" ++ s) = true) /\
  isdir_rel "path_rho" = true.
Proof.
  unfold directories_exist. rewrite forallb_forall. split.
  - intros H. repeat split; try (apply H; cbn; tauto). intros k s [<-|[<-|[]]] [<-|[<-|[<-|[<-|[]]]]]; apply H; cbn; tauto.
  - intros (H1 & H2 & H3 & H4 & H5) x I. cbn in I. repeat (destruct I as [<-|I]; [auto|]); try destruct I;
      first [apply (H4 "rho" "params"); cbn; tauto|apply (H4 "rho" "results"); cbn; tauto|apply (H4 "rho" "output"); cbn; tauto|apply (H4 "rho" "plots"); cbn; tauto
            |apply (H4 "vib" "params"); cbn; tauto|apply (H4 "vib" "results"); cbn; tauto|apply (H4 "vib" "output"); cbn; tauto|apply (H4 "vib" "plots"); cbn; tauto].
Qed.
Example C54_names_example : directories_exist (String.prefix "path_") = true /\ directories_exist (fun s => negb (String.eqb s "path_rho_plots")) = false.
Proof. split; reflexivity. Qed.

(** C55: the directories created for another rho, in order *)
Theorem C55_created ds f r : r <> id_rho f ->
  snd (change_rho ds f r) = (ds ++ map (fun x => join (path_root f) ("data_set_" ++ dec (id_data f) ++ "/rho_" ++ dec r ++ "/") ++ x)%string
                                      ["parameters/"; "results/"; "execution_output/"; "plots/"])%list.
Proof.
  intros N. unfold change_rho, make_rho_directories. cbn [snd]. apply Z.eqb_neq in N. rewrite N.
  assert (T : template_rho (id_data f) r = ("data_set_" ++ dec (id_data f) ++ "/rho_" ++ dec r ++ "/")).
  { unfold template_rho, template_vib. rewrite !append_assoc. reflexivity. }
  rewrite T. set (p := "data_set_" ++ _).
  assert (E : ends_with_slash (join (path_root f) p) = true).
  { assert (G : forall a, ends_with_slash (a ++ "/") = true).
    { clear. induction a as [|c s IH]; [reflexivity|].
      cbn [String.append ends_with_slash] in *. destruct (s ++ "/") eqn:E; [destruct s; discriminate|]. exact IH. }
    assert (P : String.prefix "/" p = false) by reflexivity. rewrite join_rel by exact P.
    assert (Q : exists q, p = q ++ "/") by (exists ("data_set_" ++ dec (id_data f) ++ "/rho_" ++ dec r); unfold p; rewrite !append_assoc; reflexivity).
    destruct Q as [q ->]. rewrite <- !append_assoc. apply G. }
  unfold makedirs, list_sub_dirs. cbn [fold_left map]. rewrite <- !app_assoc. cbn [app].
  rewrite !(join_rel (join (path_root f) p)) by reflexivity. rewrite E. reflexivity.
Qed.
Example C55_created_example : snd (change_rho [] (build_fs "/" "/w" 1 0) 4) =
  ["/w/data_set_1/rho_4/parameters/"; "/w/data_set_1/rho_4/results/"; "/w/data_set_1/rho_4/execution_output/"; "/w/data_set_1/rho_4/plots/"].
Proof. reflexivity. Qed.

(** C56: braces that are not paired, and escaped ones *)
Theorem C56_malformed args a b c s : no_brace a = true -> no_brace b = true -> b <> "" ->
  py_format (a ++ "}") args = Raise ValueError /\
  (c <> "}"%char -> py_format (a ++ "}" ++ String c s) args = Raise ValueError) /\
  py_format (a ++ "{" ++ b) args = Raise ValueError /\
  py_format (a ++ "{" ++ b ++ "{" ++ s) args = Raise ValueError /\
  py_format (a ++ "{{" ++ s) args = (do r <- py_format s args; Ok (a ++ "{" ++ r)) /\
  py_format (a ++ "}}" ++ s) args = (do r <- py_format s args; Ok (a ++ "}" ++ r)).
Proof.
  intros A B N.
  assert (G : forall acc, acc ++ b <> "" -> py_format_go (lookup_args args) (Some acc) b = Raise ValueError /\ py_format_go (lookup_args args) (Some acc) (b ++ "{" ++ s) = Raise ValueError).
  { clear A N. induction b as [|x b IH]; intros acc H.
    - rewrite append_nil_r in H. cbn. apply String.eqb_neq in H. rewrite H. auto.
    - unfold no_brace in B. cbn in B. apply andb_true_iff in B. destruct B as [B1 B2]. apply negb_true_iff, orb_false_iff in B1. destruct B1 as [B3 B4].
      cbn [String.append py_format_go]. rewrite B3, B4. apply IH; auto. rewrite append_assoc. exact H. }
  destruct (G "" N) as [G1 G2].
  split; [rewrite format_literal by auto; reflexivity|]. split.
  { intros C. apply Ascii.eqb_neq in C. rewrite format_literal by auto. unfold py_format. cbn [String.append py_format_go]. cbn [Ascii.eqb Bool.eqb]. rewrite C. reflexivity. }
  split. { rewrite format_literal by auto. change (py_format ("{" ++ b) args) with (py_format_go (lookup_args args) (Some "") b). rewrite G1. reflexivity. }
  split. { rewrite format_literal by auto. change (py_format ("{" ++ b ++ "{" ++ s) args) with (py_format_go (lookup_args args) (Some "") (b ++ "{" ++ s)). rewrite G2. reflexivity. }
  split; rewrite format_literal by auto.
  - change (py_format ("{{" ++ s) args) with (do r <- py_format s args; Ok (String "{" r)). destruct (py_format s args); reflexivity.
  - change (py_format ("}}" ++ s) args) with (do r <- py_format s args; Ok (String "}" r)). destruct (py_format s args); reflexivity.
Qed.
Example C56_malformed_example : py_format "a{{b}}{P:d}" [("P:d", "7")] = Ok "a{b}7" /\ py_format "a{P:d" [("P:d", "7")] = Raise ValueError.
Proof. split; reflexivity. Qed.
Print Assumptions C14_leading_slashes.
Print Assumptions C14_normpath_cases.
Print Assumptions C13_comparison_raises.
Print Assumptions C54_names.
Print Assumptions C55_created.
Print Assumptions C56_malformed.
