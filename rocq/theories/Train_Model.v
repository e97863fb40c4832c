(** Model of the training data of /repo/pibronic/pimc/pimc.py:602-611, 741-835, 1216-1338 and of
    generate_basic_data_set and generate_rho_output_values of
    /repo/examples/basic_ml_testing.py:20-103.

    The numerical work for one sample is an argument (it is modelled in Pimc_Model.v).  A cell of an
    array is None if it holds no computed number: NaN, what np.empty found in the memory, or a
    number computed from such a cell.  Counts are natural numbers.  The directories contain no
    braces.  After an exception the BoxResult is not looked at.  The last lines of the script
    (basic_ml_testing.py:106-159) are not modelled: the modules it imports do not exist. *)
From Coq Require Import QArith.
From Verif Require Import Common PyStr_Model FileName_Model FileStruct_Model.
Local Open Scope string_scope.
Local Open Scope list_scope.
Local Open Scope nat_scope.

(** numpy: a[start:stop] *)
Definition slice {A} (l : list A) (start stop : nat) : list A := firstn (stop - start) (skipn start l).
(** numpy: target[start:stop] = src; the slice is clipped, a source of length one is broadcast *)
Definition assign {A} (target : list A) (start stop : nat) (src : list A) : res (list A) :=
  let width := Nat.min stop (length target) - Nat.min start (length target) in
  if length src =? width then Ok (firstn start target ++ src ++ skipn (start + width) target)
  else match src with
       | [x] => Ok (firstn start target ++ repeat x width ++ skipn (start + width) target)
       | _ => Raise ValueError
       end.
(** numpy: q[:] = src for an array of n rows *)
Definition spread {A} (n : nat) (src : list A) : res (list A) :=
  if length src =? n then Ok src
  else match src with
       | [x] => Ok (repeat x n)
       | _ => Raise ValueError
       end.

Section Train.
  (** the coordinates of a sample, a random draw, a displacement, a number *)
  Variables Smp Draw Sh Val : Type.

  (** what np.savez writes: pimc.py:1258-1261, 1266-1269, basic_ml_testing.py:99-102, pimc.py:825-834 *)
  Inductive saved :=
  | SG (number_of_samples : nat) (g : list (option Val))
  | SR (number_of_samples : nat) (input_R_values : list (option Smp))
  | SRho (number_of_samples : nat) (rho : list (option Val))
  | SFull (hash_vib hash_rho : string) (number_of_samples : nat) (s_rho s_g : list (option Val)).
  (** input_dict["number_of_samples"] *)
  Definition saved_samples (z : saved) : nat := match z with SG n _ | SR n _ | SRho n _ | SFull _ _ n _ _ => n end.
  (** np.savez *)
  Definition savez (fs : fsys saved) (p : string) (z : saved) : fsys saved := fun q => if String.eqb q p then Some z else fs q.

  (** a BoxResult: the attributes used here; partial_name is a function of J *)
  Record box := mkBox {
    b_samples : nat;
    b_partial_name : Z -> string;
    b_id_job : option Z;
    b_root : string;
    b_hash_vib : option string;
    b_hash_rho : option string;
    b_g : list (option Val);
    b_rho : list (option Val) }.
  (** pimc.py:773-798: BoxResult(data) *)
  Definition new_box (P : Z) (T : Q) (samples : nat) (hv hr : option string) (root : string) (job : option Z) : box :=
    mkBox samples (fun J => pimc (dec P) (fmt2 T) (dec J)) job root hv hr (repeat None samples) (repeat None samples).
  (** pimc.py:800-817 *)
  Definition compute_path_to_file (b : box) : res string :=
    if b_samples b =? 0 then Raise AssertionError
    else Ok (join (b_root b) (b_partial_name b (match b_id_job b with Some j => j | None => 0%Z end))).
  (** pimc.py:819-835 *)
  Definition save_results (fs : fsys saved) (b : box) : res (fsys saved) :=
    do path <- compute_path_to_file b;
    match b_hash_vib b, b_hash_rho b with
    | Some hv, Some hr => Ok (savez fs path (SFull hv hr (b_samples b) (b_rho b) (b_g b)))
    | _, _ => Raise AssertionError
    end.
  Definition with_name (b : box) (name : Z -> string) : box :=
    mkBox (b_samples b) name (b_id_job b) (b_root b) (b_hash_vib b) (b_hash_rho b) (b_g b) (b_rho b).
  Definition with_g (b : box) (g : list (option Val)) : box :=
    mkBox (b_samples b) (b_partial_name b) (b_id_job b) (b_root b) (b_hash_vib b) (b_hash_rho b) g (b_rho b).
  Definition with_rho (b : box) (root : string) (rho : list (option Val)) : box :=
    mkBox (b_samples b) (b_partial_name b) (b_id_job b) root (b_hash_vib b) (b_hash_rho b) (b_g b) rho.

  (** pimc.py:1250-1270 *)
  Definition save_gR_with_samples (P : Z) (T : Q) (fs : fsys saved) (b : box) (input_R_values : list (option Smp)) : res (box * fsys saved) :=
    let b := with_name b (fun J => training_data_g_output (dec P) (fmt2 T) (dec J)) in
    do path <- compute_path_to_file b;
    let fs := savez fs path (SG (b_samples b) (b_g b)) in
    let b := with_name b (fun J => training_data_input (dec P) (fmt2 T) (dec J)) in
    do path <- compute_path_to_file b;
    Ok (b, savez fs path (SR (b_samples b) input_R_values)).

  (** pimc.py:602-611 and 1320-1334: one block; [draw k] are the random coordinates of the sample k of the block *)
  Definition raw_block (g : Smp -> Val) (draw : nat -> nat -> Smp) (size : nat) (st : list (option Smp) * list (option Val)) (k : nat) :
      res (list (option Smp) * list (option Val)) :=
    let start := k * size in
    let stop := (k + 1) * size in
    do R' <- assign (fst st) start stop (map (fun i => Some (draw k i)) (seq 0 size));
    do q <- spread size (slice R' start stop);
    do g' <- assign (snd st) start stop (map (option_map g) q);
    Ok (R', g').
  (** pimc.py:1304-1338 *)
  Definition block_compute_gR_from_raw_samples (g : Smp -> Val) (draw : nat -> nat -> Smp) (samples size blocks : nat) (P : Z) (T : Q) (fs : fsys saved) (b : box) :
      res (box * fsys saved) :=
    do st <- for_res (raw_block g draw size) (seq 0 blocks) (repeat None samples, b_g b);
    save_gR_with_samples P T fs (with_g b (snd st)) (fst st).

  (** pimc.py:1285-1299: one block *)
  Definition rho_block (rho : Smp -> Val) (input : list (option Smp)) (size : nat) (out : list (option Val)) (k : nat) : res (list (option Val)) :=
    let start := k * size in
    let stop := (k + 1) * size in
    do q <- spread size (slice input start stop);
    assign out start stop (map (option_map rho) q).
  (** pimc.py:1273-1302 *)
  Definition block_compute_rhoR_from_input_samples (rho : Smp -> Val) (size blocks : nat) (input : list (option Smp)) (out : list (option Val)) : res (list (option Val)) :=
    for_res (rho_block rho input size) (seq 0 blocks) out.

  (** pimc.py:1227-1244: one block; [shifts] is sample_shift *)
  Definition gR_block (g : Draw * Sh -> Val) (draw : nat -> nat -> Draw) (shifts : list Sh) (size : nat) (out : list (option Val)) (k : nat) : res (list (option Val)) :=
    let start := k * size in
    let stop := (k + 1) * size in
    do q <- spread size (slice shifts start stop);
    assign out start stop (map (fun x => Some (g x)) (combine (map (draw k) (seq 0 size)) q)).
  (** pimc.py:1216-1247; with zero blocks the variable end is unbound *)
  Definition block_compute_gR (g : Draw * Sh -> Val) (draw : nat -> nat -> Draw) (shifts : list Sh) (size blocks : nat) (fs : fsys saved) (b : box) : res (box * fsys saved) :=
    do out <- for_res (gR_block g draw shifts size) (seq 0 blocks) (b_g b);
    if blocks =? 0 then Raise UnboundLocalError
    else
      let b := with_g b out in
      do fs <- save_results fs b;
      Ok (b, fs).

  (** basic_ml_testing.py:39-61; the samples are 100 in one block *)
  Definition generate_basic_data_set (g : Smp -> Val) (draw : nat -> nat -> Smp) (hv hr : option string) (path_vib_results : string) (P : Z) (T : Q) (J : Z) (fs : fsys saved) :
      res (box * fsys saved) :=
    let samples := 100 in
    let size := 100 in
    block_compute_gR_from_raw_samples g draw samples size (samples / size) P T fs (new_box P T samples hv hr path_vib_results (Some J)).

  (** basic_ml_testing.py:64-103: the id_rho of the data and the outcome.  For another id_rho the
      FileStructure is made with the data object as id_data, which cannot be formatted *)
  Definition generate_rho_output_values (rho : Smp -> Val) (samples size blocks : nat) (P : Z) (T : Q) (data_id_rho : Z) (path_vib_results path_rho_results : string)
      (fs : fsys saved) (b : box) (id_rho : option Z) : Z * res (box * fsys saved) :=
    let different := match id_rho with Some r => negb (r =? data_id_rho)%Z | None => false end in
    match id_rho, different with
    | Some r, true => (r, Raise TypeError)
    | _, _ =>
        (data_id_rho,
         match b_id_job b with
         | None => Raise TypeError
         | Some J =>
             match fs (join path_vib_results (training_data_input (dec P) (fmt2 T) (dec J))) with
             | None => Raise OSError
             | Some z =>
                 do _ <- passert (saved_samples z =? samples);
                 match z with
                 | SR _ input_R_values =>
                     do out <- block_compute_rhoR_from_input_samples rho size blocks input_R_values (b_rho b);
                     let b := with_rho b path_rho_results out in
                     Ok (b, savez fs (join path_rho_results (training_data_rho_output (dec P) (fmt2 T) (dec J))) (SRho (b_samples b) out))
                 | _ => Raise KeyError
                 end
             end
         end)
    end.
End Train.
Arguments SG {Smp Val}. Arguments SR {Smp Val}. Arguments SRho {Smp Val}. Arguments SFull {Smp Val}.
Arguments saved_samples {Smp Val}. Arguments savez {Smp Val}. Arguments mkBox {Val}. Arguments new_box {Val}.
Arguments b_samples {Val}. Arguments b_partial_name {Val}. Arguments b_id_job {Val}. Arguments b_root {Val}.
Arguments b_hash_vib {Val}. Arguments b_hash_rho {Val}. Arguments b_g {Val}. Arguments b_rho {Val}.
Arguments compute_path_to_file {Val}. Arguments save_results {Smp Val}. Arguments with_name {Val}. Arguments with_g {Val}. Arguments with_rho {Val}.
Arguments save_gR_with_samples {Smp Val}. Arguments raw_block {Smp Val}. Arguments block_compute_gR_from_raw_samples {Smp Val}.
Arguments rho_block {Smp Val}. Arguments block_compute_rhoR_from_input_samples {Smp Val}. Arguments gR_block {Draw Sh Val}.
Arguments block_compute_gR {Smp Draw Sh Val}. Arguments generate_basic_data_set {Smp Val}. Arguments generate_rho_output_values {Smp Val}.
