(** Model of BoxResult / BoxResultPM (/repo/pibronic/pimc/pimc.py:741-1040), of
    the block loops (1341-1462) and of prune_results_using_hashes and
    load_pimc_data (/repo/pibronic/data/postprocessing.py:175-196, 294-310).

    A .npz file is a record of optional entries.  Array elements are NaN or a
    number; sample counts are natural numbers (negative counts are not
    modelled).  The numerical work of one sample is an argument (it is
    modelled in PimcReal_Model.v). *)
From Coq Require Import QArith.
From Verif Require Import Common PyStr_Model FileName_Model FileStruct_Model.
Local Open Scope string_scope.
Local Open Scope list_scope.
Local Open Scope nat_scope.

(** float64 array elements *)
Inductive fl := NaN | Num (q : Q).
(** x == 0.0 *)
Definition is_zero (x : fl) : bool := match x with NaN => false | Num q => Qeq_bool q 0 end.

(** the entries of a .npz result file (pimc.py:824-834, 945-956) *)
Record npz := {
  z_hash_vib : option string;
  z_hash_rho : option string;
  z_samples : option nat;
  z_rho : option (list fl);
  z_g : option (list fl);
  z_gp : option (list fl);
  z_gm : option (list fl) }.
Definition files := string -> option npz.

(** np.load(path): a missing file raises OSError *)
Definition np_load (fs : files) (p : string) : res npz := match fs p with Some z => Ok z | None => Raise OSError end.

Definition present {A} (x : option A) : bool := match x with Some _ => true | None => false end.
(** data[key] *)
Definition entry {A} (x : option A) : res A := match x with Some a => Ok a | None => Raise KeyError end.

(** pimc.py:749 key_list and 766-771 result_keys_are_present_in; with [pm],
    918 and 930-935 (BoxResultPM) *)
Definition keys_present (pm : bool) (z : npz) : bool :=
  present (z_samples z) && present (z_rho z) && present (z_g z) && (negb pm || (present (z_gp z) && present (z_gm z))).

(** the attribute [samples] of an object: a Python int, or an array read from a
    file.  "x is 0" is true for the Python int 0 only; an array just read is
    never the same object as an existing one. *)
Inductive count := PyInt (n : nat) | NpInt (n : nat).
Definition count_value (c : count) : nat := match c with PyInt n => n | NpInt n => n end.
Definition is_0 (c : count) : bool := match c with PyInt 0 => true | _ => false end.

Record result := {
  r_samples : count;
  r_hash_vib : option string;
  r_hash_rho : option string;
  r_rho : list fl;
  r_g : list fl;
  r_gp : list fl;
  r_gm : list fl }.

(** pimc.py:773-776, 937-941; the base class has no g+ and g- *)
Definition nans (n : nat) : list fl := repeat NaN n.
Definition initialize_arrays (pm : bool) (r : result) : result :=
  let n := count_value (r_samples r) in
  {| r_samples := r_samples r; r_hash_vib := r_hash_vib r; r_hash_rho := r_hash_rho r; r_rho := nans n; r_g := nans n;
     r_gp := if pm then nans n else []; r_gm := if pm then nans n else [] |}.

(** pimc.py:778-798 with [data] given: sample count and hashes of the data object *)
Definition new_result (pm : bool) (samples : nat) (hv hr : option string) : result :=
  initialize_arrays pm {| r_samples := PyInt samples; r_hash_vib := hv; r_hash_rho := hr; r_rho := []; r_g := []; r_gp := []; r_gm := [] |}.
(** pimc.py:788-792: BoxResult(X=n) and BoxResult() (n = 0); the hashes are the class attributes, None *)
Definition new_empty (pm : bool) (n : nat) : result := new_result pm n None None.

(** pimc.py:819-835, 943-957; path: 800-817 *)
Definition save_results (pm : bool) (root : string) (P : Z) (T : Q) (job : option Z) (r : result) : res (string * npz) :=
  if is_0 (r_samples r) then Raise AssertionError
  else
    let path := join root (pimc (dec P) (fmt2 T) (dec (match job with Some j => j | None => 0%Z end))) in
    if present (r_hash_vib r) && present (r_hash_rho r) then
      Ok (path, {| z_hash_vib := r_hash_vib r; z_hash_rho := r_hash_rho r; z_samples := Some (count_value (r_samples r));
                   z_rho := Some (r_rho r); z_g := Some (r_g r);
                   z_gp := if pm then Some (r_gp r) else None; z_gm := if pm then Some (r_gm r) else None |})
    else Raise AssertionError.

(** pimc.py:837-851, 959-966 (758-764 and 920-927: a missing key raises AssertionError) *)
Definition load_results (pm : bool) (fs : files) (path : string) (r : result) : res result :=
  do z <- np_load fs path;
  if negb (keys_present pm z) then Raise AssertionError
  else
    do n <- entry (z_samples z);
    if is_0 (r_samples r) then
      do g <- entry (z_g z);
      do rho <- entry (z_rho z);
      do gp <- (if pm then entry (z_gp z) else Ok []);
      do gm <- (if pm then entry (z_gm z) else Ok []);
      Ok {| r_samples := NpInt n; r_hash_vib := r_hash_vib r; r_hash_rho := r_hash_rho r; r_rho := rho; r_g := g; r_gp := gp; r_gm := gm |}
    else Raise AssertionError.

(** numpy: target[start:start+len] = src.  The slice is clipped to the target; a
    source of length one is broadcast; any other length mismatch raises. *)
Definition assign_slice (target : list fl) (start len : nat) (src : list fl) : res (list fl) :=
  let stop := Nat.min (start + len) (length target) in
  let width := stop - Nat.min start (length target) in
  if length src =? width then Ok (firstn start target ++ src ++ skipn (start + width) target)
  else match src with
       | [x] => Ok (firstn start target ++ repeat x width ++ skipn (start + width) target)
       | _ => Raise ValueError
       end.

(** pimc.py:860-881, 978-999: the first pass: the number of samples in the
    files with all keys, and the paths of the others.  The count starts as the
    Python int 0 and becomes a numpy integer with the first addition. *)
Fixpoint scan (pm : bool) (fs : files) (paths : list string) (n : count) (bad : list string) : res (count * list string) :=
  match paths with
  | [] => Ok (n, bad)
  | p :: ps =>
      do z <- np_load fs p;
      if keys_present pm z then
        do k <- entry (z_samples z);
        scan pm fs ps (NpInt (count_value n + k)) bad
      else scan pm fs ps n (bad ++ [p])
  end.

(** pimc.py:901-912, 1026-1040: the second pass *)
Fixpoint fill (pm : bool) (fs : files) (order : list string) (desired start : nat) (r : result) : res result :=
  match order with
  | [] => Ok r
  | p :: ps =>
      if desired <=? start then Ok r
      else
        do z <- np_load fs p;
        do n <- entry (z_samples z);
        let len := Nat.min n desired in
        do rho <- entry (z_rho z);
        if existsb is_zero (firstn len rho) then Raise AssertionError
        else
          do g <- entry (z_g z);
          do g' <- assign_slice (r_g r) start len (firstn len g);
          do rho' <- assign_slice (r_rho r) start len (firstn len rho);
          do gp' <- (if pm then do gp <- entry (z_gp z); assign_slice (r_gp r) start len (firstn len gp) else Ok (r_gp r));
          do gm' <- (if pm then do gm <- entry (z_gm z); assign_slice (r_gm r) start len (firstn len gm) else Ok (r_gm r));
          fill pm fs ps desired (start + len)
            {| r_samples := r_samples r; r_hash_vib := r_hash_vib r; r_hash_rho := r_hash_rho r; r_rho := rho'; r_g := g'; r_gp := gp'; r_gm := gm' |}
  end.

Definition mem (p : string) (l : list string) : bool := existsb (String.eqb p) l.

Section Multiple.
  (** list(set(l)): the elements of l, each once, in some order *)
  Variable set_order : list string -> list string.

  (** pimc.py:853-912, 968-1040; the object before the call is [r] *)
  Definition load_multiple_results (pm : bool) (fs : files) (paths : list string) (desired : option nat) (r : result) : res result :=
    if length paths =? 0 then Raise AssertionError
    else
      do (n, bad) <- scan pm fs paths (PyInt 0) [];
      let good := set_order (filter (fun p => negb (mem p bad)) paths) in
      if length good =? 0 then Raise AssertionError
      else if is_0 n then Raise AssertionError
      else
        let D := match desired with None => count_value n | Some d => d end in
        let n := match desired with
                 | None => n
                 | Some d => if d <=? count_value n then PyInt d else n
                 end in
        fill pm fs good D 0
          (initialize_arrays pm {| r_samples := n; r_hash_vib := r_hash_vib r; r_hash_rho := r_hash_rho r; r_rho := []; r_g := []; r_gp := []; r_gm := [] |}).

  (** postprocessing.py:294-310; [names] lists the results directory [dir] *)
  Definition load_pimc_data (pm : bool) (fs : files) (dir : string) (names : list string) (P : Z) (T : Q) (r : result) : res result :=
    load_multiple_results pm fs (map (fun name => (dir ++ name)%string) (select_pimc_files P T names)) None r.
End Multiple.

(** ---- prune_results_using_hashes ---- *)
(** the two entries looked at, in a .npz file or in a thermo (JSON) file *)
Definition hashes_of := string -> option (option string * option string).

(** s[-k:] *)
Definition last_chars (k : nat) (s : string) : string := String.substring (String.length s - k) (Nat.min k (String.length s)) s.

(** postprocessing.py:175-196 *)
Fixpoint prune (h : hashes_of) (hv hr : string) (paths : list string) : res (list string) :=
  match paths with
  | [] => Ok []
  | p :: ps =>
      if (String.eqb (last_chars 4 p) ".npz") || (String.eqb (last_chars 6 p) "thermo") then
        match h p with
        | None => Raise OSError
        | Some (Some a, Some b) =>
            do rest <- prune h hv hr ps;
            Ok (if String.eqb a hv && String.eqb b hr then p :: rest else rest)
        | Some _ => prune h hv hr ps
        end
      else Raise OtherException
  end.

(** ---- the block loops ---- *)
Section Blocks.
  (** [X] is the type of the normal deviates of one sample; [stream i] is the
      i-th value produced by the generator.  [source i] is the surface chosen
      for sample i when the object was prepared (pimc.py:387-390). *)
  Variables X S : Type.
  Variable stream : nat -> X.
  Variable source : nat -> S.
  (** rho, g, g+ and g- of one sample *)
  Variables frho fg fgp fgm : S * X -> fl.

  (** pimc.py:595-600 draw_sample: the next [b] values of the generator *)
  Definition draw (pos b : nat) : list X * nat := (map stream (seq pos b), pos + b).

  (** pimc.py:1360-1381 and 1413-1447: one block.  A block reaching beyond the
      arrays raises ValueError (shape mismatch of sample_shift or of the output slice). *)
  Definition block (pm : bool) (bsize : nat) (st : result * nat) (index : nat) : res (result * nat) :=
    let (r, pos) := st in
    let start := index * bsize in
    let (ys, pos') := draw pos bsize in
    let xs := combine (map source (seq start bsize)) ys in
    if count_value (r_samples r) <? start + bsize then Raise ValueError
    else
      do rho' <- assign_slice (r_rho r) start bsize (map frho xs);
      do g' <- assign_slice (r_g r) start bsize (map fg xs);
      do gp' <- (if pm then assign_slice (r_gp r) start bsize (map fgp xs) else Ok (r_gp r));
      do gm' <- (if pm then assign_slice (r_gm r) start bsize (map fgm xs) else Ok (r_gm r));
      Ok ({| r_samples := r_samples r; r_hash_vib := r_hash_vib r; r_hash_rho := r_hash_rho r; r_rho := rho'; r_g := g'; r_gp := gp'; r_gm := gm' |}, pos').

  (** pimc.py:1341-1385 block_compute, 1388-1462 block_compute_pm.  With zero
      blocks the variable [end] is unbound when the results are saved. *)
  Definition block_compute (pm : bool) (bsize blocks : nat) (root : string) (P : Z) (T : Q) (job : option Z) (r : result) : res (result * (string * npz)) :=
    do (r', _) <- for_res (block pm bsize) (seq 0 blocks) (r, 0);
    if blocks =? 0 then Raise UnboundLocalError
    else do out <- save_results pm root P T job r'; Ok (r', out).
End Blocks.
