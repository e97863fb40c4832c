(** Properties C18-C22 and C58: result files, pooling and the block loop.

    [arr sel fs p] is the array [sel] of file [p], [size fs p] the number of
    samples the file reports, [cat sel fs ps] the concatenation of the arrays
    of several files and [total fs ps] the sum of their sizes.  [good pm fs p]:
    the file has every required key.  [consistent]: its arrays have the
    reported length.  [nonzero]: no element of s_rho is zero.  [set_list]: the
    order in which Python lists a set is arbitrary. *)
From Coq Require Import QArith Permutation.
From Verif Require Import Common Common_Proofs PyStr_Model FileName_Model FileName_Proofs FileStruct_Model Results_Model Results_Proofs.
Local Open Scope string_scope.
Local Open Scope list_scope.
Local Open Scope nat_scope.

(** ---- C18 ---- *)
Theorem C18_pooling set_order pm fs paths r :
  set_list set_order -> NoDup paths ->
  (forall p, In p paths -> fs p <> None) ->
  (exists p, In p paths /\ good pm fs p = true) ->
  (forall p, In p paths -> good pm fs p = true -> consistent pm fs p /\ nonzero fs p) ->
  exists order r', Permutation order (filter (good pm fs) paths) /\
    load_multiple_results set_order pm fs paths None r = Ok r' /\
    count_value (r_samples r') = total fs order /\ r_hash_vib r' = r_hash_vib r /\ r_hash_rho r' = r_hash_rho r /\
    r_rho r' = cat z_rho fs order /\ r_g r' = cat z_g fs order /\
    (pm = true -> r_gp r' = cat z_gp fs order /\ r_gm r' = cat z_gm fs order).
Proof. intros Hs Hn Hf. exact (pool_all set_order Hs pm fs paths Hf r Hn). Qed.
Print Assumptions C18_pooling.

Theorem C18_zero_fails set_order pm fs paths r :
  set_list set_order -> NoDup paths ->
  (forall p, In p paths -> fs p <> None) ->
  (forall p, In p paths -> good pm fs p = true -> consistent pm fs p) ->
  (exists p q, In p paths /\ good pm fs p = true /\ In (Num q) (arr z_rho fs p) /\ (q == 0)%Q) ->
  load_multiple_results set_order pm fs paths None r = Raise AssertionError.
Proof. intros Hs Hn Hf. exact (pool_zero set_order Hs pm fs paths Hf r Hn). Qed.
Print Assumptions C18_zero_fails.

(** includes the empty list of paths *)
Theorem C18_no_usable_file_fails set_order pm fs paths desired r :
  set_list set_order -> (forall p, In p paths -> fs p <> None) ->
  (forall p, In p paths -> good pm fs p = false) ->
  load_multiple_results set_order pm fs paths desired r = Raise AssertionError.
Proof. intros Hs Hf. exact (pool_no_good set_order Hs pm fs paths Hf desired r). Qed.
Print Assumptions C18_no_usable_file_fails.

Theorem C18_missing_file_fails set_order pm fs paths desired r :
  (exists p, In p paths /\ fs p = None) -> load_multiple_results set_order pm fs paths desired r = Raise OSError.
Proof. exact (pool_missing set_order pm fs paths desired r). Qed.
Print Assumptions C18_missing_file_fails.

(** distinct paths are needed: a path given twice is counted twice but read
    once, and the other half of the arrays stays NaN *)
Theorem C18_duplicate_path_refuted set_order pm fs p r :
  set_list set_order -> good pm fs p = true -> consistent pm fs p -> nonzero fs p -> 0 < size fs p ->
  exists r', load_multiple_results set_order pm fs [p; p] None r = Ok r' /\
    count_value (r_samples r') = 2 * size fs p /\
    r_rho r' = arr z_rho fs p ++ repeat NaN (size fs p) /\ r_g r' = arr z_g fs p ++ repeat NaN (size fs p).
Proof. intros Hs H1 H2 H3 H4. exact (pool_duplicate set_order pm fs p r Hs (conj H1 (conj H2 H3)) H4). Qed.
Print Assumptions C18_duplicate_path_refuted.

(** ---- C19 ---- *)
(** [ok] says when the cap does not cut a file: everything fits, or it falls on
    a file boundary, or the first non-empty file alone is enough *)
Theorem C19_capped set_order pm fs paths D r :
  set_list set_order -> NoDup paths ->
  (forall p, In p paths -> fs p <> None) ->
  (exists p, In p paths /\ good pm fs p = true) ->
  (forall p, In p paths -> good pm fs p = true -> consistent pm fs p /\ nonzero fs p) ->
  exists order, Permutation order (filter (good pm fs) paths) /\
    let sizes := map (size fs) order in
    let ok := list_sum sizes <= D \/ (exists k, list_sum (firstn k sizes) = D) \/
              (exists k, k < length sizes /\ list_sum (firstn k sizes) = 0 /\ D <= nth k sizes 0) in
    (ok -> exists r', load_multiple_results set_order pm fs paths (Some D) r = Ok r' /\
           count_value (r_samples r') = Nat.min D (list_sum sizes) /\
           r_rho r' = firstn D (cat z_rho fs order) /\ r_g r' = firstn D (cat z_g fs order) /\
           (pm = true -> r_gp r' = firstn D (cat z_gp fs order) /\ r_gm r' = firstn D (cat z_gm fs order))) /\
    (~ ok -> load_multiple_results set_order pm fs paths (Some D) r = Raise ValueError).
Proof. intros Hs Hn Hf. exact (pool_capped set_order Hs pm fs paths Hf D r Hn). Qed.
Print Assumptions C19_capped.

(** finding: enough samples are available, yet loading fails *)
Definition three (a : Q) : npz :=
  {| z_hash_vib := Some "v"; z_hash_rho := Some "r"; z_samples := Some 3; z_rho := Some [Num a; Num a; Num a]; z_g := Some [Num (2 * a); Num 1; NaN]%Q;
     z_gp := Some [Num 1; Num 2; Num 3]%Q; z_gm := Some [Num 4; Num 5; Num 6]%Q |}.
Definition two_files : files := fun p => if String.eqb p "a.npz" then Some (three 1) else if String.eqb p "b.npz" then Some (three 2) else None.


Theorem C19_cap_inside_second_file_refuted set_order r :
  set_list set_order -> load_multiple_results set_order true two_files ["a.npz"; "b.npz"] (Some 4) r = Raise ValueError.
Proof.
  intros Hs.
  destruct (C19_capped set_order true two_files ["a.npz"; "b.npz"] 4 r Hs) as (order & HP & _ & H).
  - repeat constructor; cbn; intuition discriminate.
  - intros p [<-|[<-|[]]]; discriminate.
  - exists "a.npz". split; [left; auto|reflexivity].
  - intros p [<-|[<-|[]]] _; (split; [repeat split|]); intros q Hq E;
      cbn in Hq; destruct Hq as [Hq|[Hq|[Hq|[]]]]; injection Hq as <-; vm_compute in E; discriminate.
  - apply H. cbn in HP.
    assert (map (size two_files) order = [3; 3]) as ->.
    { apply Permutation_sym, Permutation_length_2_inv in HP. destruct HP as [-> | ->]; reflexivity. }
    cbn. intros [HH|[[k HH]|[k HH]]]; [lia| |]; destruct k as [|[|[|k]]]; cbn in HH; try lia.
Qed.
Print Assumptions C19_cap_inside_second_file_refuted.

Example C18_C19_example :
  let so := fun l : list string => nodup String.string_dec l in
  let fs : files := fun p => if String.eqb p "c.npz" then Some (Build_npz None None (Some 7) None None None None) else two_files p in
  set_list so /\
  (exists r, load_multiple_results so true fs ["a.npz"; "c.npz"; "b.npz"] None (new_empty true 0) = Ok r /\
     count_value (r_samples r) = 6 /\ r_rho r = [Num 1; Num 1; Num 1; Num 2; Num 2; Num 2]%Q /\
     r_gm r = [Num 4; Num 5; Num 6; Num 4; Num 5; Num 6]%Q) /\
  (exists r, load_multiple_results so true fs ["a.npz"; "c.npz"; "b.npz"] (Some 3) (new_empty true 0) = Ok r /\ r_rho r = [Num 1; Num 1; Num 1]%Q) /\
  (exists r, load_multiple_results so false fs ["a.npz"; "b.npz"] (Some 2) (new_empty false 0) = Ok r /\ r_rho r = [Num 1; Num 1]%Q) /\
  (exists r, load_multiple_results so false fs ["a.npz"; "b.npz"] (Some 9) (new_empty false 0) = Ok r /\ count_value (r_samples r) = 6) /\
  load_multiple_results so true fs ["c.npz"] None (new_empty true 0) = Raise AssertionError /\
  load_multiple_results so true fs ["a.npz"; "d.npz"] None (new_empty true 0) = Raise OSError.
Proof.
  cbv zeta. split.
  { intros l. split; [apply NoDup_nodup|intros p; apply nodup_In]. }
  repeat split; try (eexists; vm_compute; repeat split); vm_compute; reflexivity.
Qed.

(** ---- C20 ---- *)
Theorem C20_prune h hv hr paths :
  (forall p, In p paths -> named p = true /\ h p <> None) ->
  prune h hv hr paths = Ok (filter (fun p => match h p with Some (Some a, Some b) => String.eqb a hv && String.eqb b hr | _ => false end) paths).
Proof. exact (prune_ok h hv hr paths). Qed.
Print Assumptions C20_prune.

Theorem C20_prune_fails h hv hr paths :
  (exists p, In p paths /\ (named p = false \/ h p = None)) -> exists e, prune h hv hr paths = Raise e.
Proof. exact (prune_fails h hv hr paths). Qed.
Print Assumptions C20_prune_fails.

(** finding: pooling never looks at the hashes; erasing or changing them in
    every file changes nothing *)
Theorem C20_pooling_ignores_hashes_refuted set_order pm fs fs' paths desired r :
  (forall p, option_map drop_hashes (fs p) = option_map drop_hashes (fs' p)) ->
  load_multiple_results set_order pm fs paths desired r = load_multiple_results set_order pm fs' paths desired r.
Proof. exact (pool_ignores_hashes set_order pm fs fs' paths desired r). Qed.
Print Assumptions C20_pooling_ignores_hashes_refuted.

Example C20_example :
  let h : hashes_of := fun p => if String.eqb p "a.npz" then Some (Some "v", Some "r") else if String.eqb p "b_thermo" then Some (Some "v", Some "x")
                                else if String.eqb p "c.npz" then Some (Some "v", None) else if String.eqb p "d_thermo" then Some (Some "v", Some "r") else None in
  prune h "v" "r" ["d_thermo"; "a.npz"; "b_thermo"; "c.npz"; "a.npz"] = Ok ["d_thermo"; "a.npz"; "a.npz"] /\
  prune h "v" "r" ["a.npz"; "a.txt"] = Raise OtherException /\ prune h "v" "r" ["e.npz"] = Raise OSError /\
  named "npz" = false /\ named ".npz" = true.
Proof. vm_compute. auto. Qed.

(** ---- C21 ---- *)
Theorem C21_save_contents pm root P T job r path z :
  save_results pm root P T job r = Ok (path, z) ->
  path = join root (pimc_file P T (match job with Some j => j | None => 0%Z end)) /\
  z_hash_vib z = r_hash_vib r /\ z_hash_rho z = r_hash_rho r /\ z_samples z = Some (count_value (r_samples r)) /\
  z_rho z = Some (r_rho r) /\ z_g z = Some (r_g r) /\
  z_gp z = (if pm then Some (r_gp r) else None) /\ z_gm z = (if pm then Some (r_gm r) else None).
Proof. exact (save_contents pm root P T job r path z). Qed.
Print Assumptions C21_save_contents.

Theorem C21_save_possible pm root P T job r :
  (exists out, save_results pm root P T job r = Ok out) <-> r_samples r <> PyInt 0 /\ r_hash_vib r <> None /\ r_hash_rho r <> None.
Proof. exact (save_ok pm root P T job r). Qed.
Print Assumptions C21_save_possible.

Theorem C21_round_trip pm root P T job r path z fs r0 :
  save_results pm root P T job r = Ok (path, z) -> fs path = Some z -> r_samples r0 = PyInt 0 ->
  exists r', load_results pm fs path r0 = Ok r' /\ count_value (r_samples r') = count_value (r_samples r) /\
    r_rho r' = r_rho r /\ r_g r' = r_g r /\ (pm = true -> r_gp r' = r_gp r /\ r_gm r' = r_gm r).
Proof. exact (save_load pm root P T job r path z fs r0). Qed.
Print Assumptions C21_round_trip.

Theorem C21_across_classes root P T job r path z fs r0 :
  fs path = Some z -> r_samples r0 = PyInt 0 ->
  (save_results false root P T job r = Ok (path, z) -> load_results true fs path r0 = Raise AssertionError) /\
  (save_results true root P T job r = Ok (path, z) -> exists r', load_results false fs path r0 = Ok r' /\ r_rho r' = r_rho r /\ r_g r' = r_g r).
Proof. exact (load_across root P T job r path z fs r0). Qed.
Print Assumptions C21_across_classes.

(** finding: an object that has a sample count can never load, even a file with that count *)
Theorem C21_same_count_refuted pm fs path r z :
  r_samples r <> PyInt 0 -> fs path = Some z -> load_results pm fs path r = Raise AssertionError.
Proof. exact (load_nonempty_fails pm fs path r z). Qed.
Print Assumptions C21_same_count_refuted.

(** in particular an object can be loaded only once *)
Theorem C21_second_load_fails pm fs path r r' path' :
  load_results pm fs path r = Ok r' -> exists e, load_results pm fs path' r' = Raise e.
Proof. exact (load_twice_fails pm fs path r r' path'). Qed.
Print Assumptions C21_second_load_fails.

Example C21_example :
  let r := Build_result (PyInt 2) (Some "v") (Some "r") [Num 1; NaN]%Q [Num 2; Num 3]%Q [Num 4; Num 5]%Q [Num 6; Num 7]%Q in
  exists path z, save_results true "/x" 12 (3001 # 10) (Some 3%Z) r = Ok (path, z) /\ path = "/x/P12_T300.10_J3_data_points.npz" /\
    exists r', load_results true (fun p => if String.eqb p path then Some z else None) path (new_empty true 0) = Ok r' /\ r_gm r' = [Num 6; Num 7]%Q /\
    load_results true (fun p => if String.eqb p path then Some z else None) path (new_empty true 2) = Raise AssertionError.
Proof. cbv zeta. do 2 eexists. split; [reflexivity|]. split; [vm_compute; reflexivity|]. eexists. vm_compute. repeat split. Qed.

(** ---- C22 ---- *)
(** sample i is computed from the i-th draw and the surface chosen for i; the rest stays NaN *)
Theorem C22_block_loop (X S : Type) (stream : nat -> X) (source : nat -> S) (frho fg fgp fgm : S * X -> fl) pm bsize blocks samples hv hr root P T job :
  0 < samples -> 0 < blocks -> blocks * bsize <= samples ->
  exists r' path z,
    block_compute X S stream source frho fg fgp fgm pm bsize blocks root P T job (new_result pm samples (Some hv) (Some hr)) = Ok (r', (path, z)) /\
    (let vals := fun f : S * X -> fl => map (fun i => f (source i, stream i)) (seq 0 (blocks * bsize)) ++ repeat NaN (samples - blocks * bsize) in
     r_rho r' = vals frho /\ r_g r' = vals fg /\
     (if pm then r_gp r' = vals fgp /\ r_gm r' = vals fgm else r_gp r' = [] /\ r_gm r' = [])) /\
    save_results pm root P T job r' = Ok (path, z) /\ z_hash_vib z = Some hv /\ z_hash_rho z = Some hr /\ z_samples z = Some samples.
Proof. exact (compute_ok X S stream source frho fg fgp fgm pm bsize blocks samples hv hr root P T job). Qed.
Print Assumptions C22_block_loop.

Theorem C22_no_blocks (X S : Type) (stream : nat -> X) (source : nat -> S) (frho fg fgp fgm : S * X -> fl) pm bsize root P T job r :
  block_compute X S stream source frho fg fgp fgm pm bsize 0 root P T job r = Raise UnboundLocalError.
Proof. exact (compute_no_blocks X S stream source frho fg fgp fgm pm bsize root P T job r). Qed.
Print Assumptions C22_no_blocks.

Theorem C22_too_many_blocks (X S : Type) (stream : nat -> X) (source : nat -> S) (frho fg fgp fgm : S * X -> fl) pm bsize blocks samples hv hr root P T job :
  samples < blocks * bsize ->
  block_compute X S stream source frho fg fgp fgm pm bsize blocks root P T job (new_result pm samples hv hr) = Raise ValueError.
Proof. exact (compute_too_many X S stream source frho fg fgp fgm pm bsize blocks samples hv hr root P T job). Qed.
Print Assumptions C22_too_many_blocks.

Example C22_example :
  let f := fun x : nat * nat => Num (inject_Z (Z.of_nat (fst x + 10 * snd x))) in
  exists r path z,
    block_compute nat nat (fun i => i) (fun i => i mod 2) f f f f true 2 2 "/x" 12 300 None (new_result true 5 (Some "v") (Some "r")) = Ok (r, (path, z)) /\
    r_gp r = [Num 0; Num 11; Num 20; Num 31; NaN]%Q.
Proof. cbv zeta. do 3 eexists. split; [vm_compute; reflexivity|vm_compute; reflexivity]. Qed.

(** ---- C58 ---- *)
(** the results directory holds result files of any (P, T, J) *)
Theorem C58_pools_matching_files set_order pm fs dir P T l r :
  set_list set_order -> (0 <= Qnum T)%Z -> Forall (fun x => (0 <= Qnum (snd (fst x)))%Z) l -> NoDup (map name_of l) ->
  let mine := map (fun x => (dir ++ name_of x)%string)
                (filter (fun x => (P =? fst (fst x))%Z && (hundredths T =? hundredths (snd (fst x)))%Z) l) in
  (forall p, In p mine -> fs p <> None) -> (exists p, In p mine /\ good pm fs p = true) ->
  (forall p, In p mine -> good pm fs p = true -> consistent pm fs p /\ nonzero fs p) ->
  exists order r', Permutation order (filter (good pm fs) mine) /\
    load_pimc_data set_order pm fs dir (map name_of l) P T r = Ok r' /\
    count_value (r_samples r') = total fs order /\
    r_rho r' = cat z_rho fs order /\ r_g r' = cat z_g fs order /\
    (pm = true -> r_gp r' = cat z_gp fs order /\ r_gm r' = cat z_gm fs order).
Proof. exact (pimc_data_pool set_order pm fs dir P T l r). Qed.
Print Assumptions C58_pools_matching_files.

Theorem C58_no_file_fails set_order pm fs dir P T l r :
  (0 <= Qnum T)%Z -> Forall (fun x => (0 <= Qnum (snd (fst x)))%Z) l ->
  (forall x, In x l -> ~ (fst (fst x) = P /\ hundredths (snd (fst x)) = hundredths T)) ->
  load_pimc_data set_order pm fs dir (map name_of l) P T r = Raise AssertionError.
Proof. exact (pimc_data_none set_order pm fs dir P T l r). Qed.
Print Assumptions C58_no_file_fails.

Example C58_example :
  let so := fun l : list string => nodup String.string_dec l in
  let fs : files := fun p => Some (three (if String.eqb p "/x/P12_T300.00_J2_data_points.npz" then 5 else if String.eqb p "/x/P12_T300.00_J0_data_points.npz" then 7 else 9)) in
  let names := map name_of [(12%Z, 300%Q, 0%Z); (120%Z, 300%Q, 0%Z); (12%Z, 3000%Q, 1%Z); (12%Z, 30%Q, 1%Z); (12%Z, 300%Q, 2%Z)] in
  exists r, load_pimc_data so false fs "/x/" names 12 300 (new_empty false 0) = Ok r /\ r_rho r = [Num 7; Num 7; Num 7; Num 5; Num 5; Num 5]%Q.
Proof. cbv zeta. eexists. split; vm_compute; reflexivity. Qed.
