(** Model of /repo/pibronic/plotting/grid_plots.py:26-235 (class plotGrids: pictures of the
    parameters of a model) and of /repo/examples/artificial_systems/generate_energy_plots.py:15-28.

    Simplified: a picture is its file, its title, the array handed to imshow and the texts put on
    it.  Colours, ticks and labels are left out; matplotlib and LaTeX are assumed to work.  A list
    in a model file that is no array of numbers is an error where it is converted (in Python
    where it is drawn).  imshow takes arrays with two axes (pictures with colour channels, three
    axes of which the last is 3 or 4, are not modelled). *)
From Verif Require Import Common PyStr_Model FileName_Model Arr_Model ModelIO_Model Load_Model FileStruct_Model Submit2_Model Setup_Model.
Local Open Scope string_scope.
Local Open Scope nat_scope.

Section Grid.
  Context {V : Type}.
  Variable vint : V -> res Z.
  Variable v_of_int : Z -> V.
  (** np.sign: [Gt] is 1, [Lt] is -1, [Eq] is 0, [None] is NaN *)
  Variable sign : V -> option comparison.

  (** one saved picture: the text at horizontal position x and vertical position y *)
  Record figure := { fig_path : string; fig_title : string; fig_image : arr V; fig_marks : list (nat * nat * string) }.
  (** the pictures saved until the end or the error *)
  Definition figs : Type := list figure * res unit.
  Definition figs_then (a b : figs) : figs :=
    match a with
    | (l, Ok _) => ((l ++ fst b)%list, snd b)
    | (l, Raise e) => (l, Raise e)
    end.
  Definition figs_all (l : list figs) : figs := fold_right figs_then ([], Ok tt) l.
  Definition figs_of (r : res figs) : figs := match r with Ok x => x | Raise e => ([], Raise e) end.

  (** generate_sign_array, grid_plots.py:93-99; the text of one element *)
  Definition sign_text (v : V) : string :=
    match sign v with Some Gt => "+" | Some Lt => "-" | Some Eq => "0" | None => "y" end.
  Definition generate_sign_array (a : arr V) : arr string := mkArr (shape a) (map sign_text (data a)).

  (** annotate_intensity_grid, grid_plots.py:61-91: the texts and the title; [rho] is FS.path_rho_model *)
  Definition annotate (f : fs V) (rho : string) (d : Z) (image : arr V) (title : string) : res (list (nat * nat * string) * string) :=
    do AN <- extract_dimensions vint f (Some rho) None;
    let A := Z.to_nat (fst AN) in
    do marks <- map_res (fun ab => match aget (generate_sign_array image) [fst ab; snd ab] with
                                   | Some t => Ok (fst ab, snd ab, t)
                                   | None => Raise IndexError
                                   end) (list_prod (seq 0 A) (seq 0 A));
    Ok (marks, title ++ String "010"%char ("Data Set " ++ dec d ++ " - " ++ dec (fst AN) ++ " surfaces " ++ dec (snd AN) ++ " normal modes")).

  (** plot_single_energy_grid, plot_single_linear_grid, plot_single_quadratic_grid, grid_plots.py:101-113, 141-153, 189-201 *)
  Definition plot_single (f : fs V) (FS : fstruct) (image : arr V) (filename title : string) : figs :=
    figs_of (
      do _ <- (match shape image with [_; _] => Ok tt | _ => Raise TypeError end);
      do m <- annotate f (path_rho_model FS) (id_data FS) image title;
      Ok ([{| fig_path := join (path_vib_plots FS) filename; fig_title := snd m; fig_image := image; fig_marks := fst m |}], Ok tt)).

  (** load_original_models, load_coupled_models, load_data, grid_plots.py:34-59 *)
  Definition load_data (f : fs V) (FS : fstruct) : res (list (key * jval V) * list (key * jval V)) :=
    do o <- read_json f (path_orig_model FS);
    do c <- read_json f (path_vib_model FS);
    Ok (o, c).
  (** np.array(model[key.value]), grid_plots.py:119, 127, 182, 185, 230, 233 *)
  Definition parameter (o : list (key * jval V)) (m : vmk) : res (arr V) :=
    do j <- jitem o (KS (vmk_value m)); to_array v_of_int j.

  (** a[i, ...] *)
  Definition aslice (a : arr V) (i : nat) : res (arr V) :=
    match shape a with
    | n :: s => if i <? n then Ok (mkArr s (firstn (prodn s) (skipn (i * prodn s) (data a)))) else Raise IndexError
    | [] => Raise IndexError
    end.

  (** plot_original_energy_grid, plot_coupled_energy_grid, plot_energy, grid_plots.py:115-139 *)
  Definition plot_energy_grid (f : fs V) (FS : fstruct) (o : list (key * jval V)) (Which which : string) : figs :=
    figs_of (do e <- parameter o E_;
             Ok (plot_single f FS e (which ++ "_energy_grid_D" ++ dec (id_data FS) ++ ".pdf") (Which ++ " Energy Grid"))).
  Definition plot_energy (f : fs V) (FS : fstruct) (models : list (key * jval V) * list (key * jval V)) : figs :=
    figs_then (plot_energy_grid f FS (fst models) "Original" "original") (plot_energy_grid f FS (snd models) "Coupled" "coupled").

  (** plot_original_linear_grids, plot_coupled_linear_grids, grid_plots.py:155-171 *)
  Definition plot_linear_grids (f : fs V) (FS : fstruct) (a : arr V) (Which which : string) : figs :=
    figs_of (
      do AN <- extract_dimensions vint f (Some (path_rho_model FS)) None;
      Ok (figs_all (map (fun j =>
        figs_of (do g <- aslice a j;
                 Ok (plot_single f FS g (which ++ "_linear_grid_D" ++ dec (id_data FS) ++ "_N" ++ dec (Z.of_nat j + 1) ++ ".pdf")
                       (Which ++ " linear terms Grid (Mode " ++ dec (Z.of_nat j + 1) ++ ")"))))
        (seq 0 (Z.to_nat (snd AN)))))).
  (** plot_linear_coupling, grid_plots.py:173-187: only the coupled model is asked for the terms *)
  Definition plot_linear_coupling (f : fs V) (FS : fstruct) (models : list (key * jval V) * list (key * jval V)) : figs :=
    if dmem key_eqb (snd models) (KS (vmk_value G1_)) then
      figs_then (figs_of (do a <- parameter (fst models) G1_; Ok (plot_linear_grids f FS a "Original" "original")))
                (figs_of (do a <- parameter (snd models) G1_; Ok (plot_linear_grids f FS a "Coupled" "coupled")))
    else ([], Raise OtherException).

  (** plot_original_quadratic_grids, plot_coupled_quadratic_grids, grid_plots.py:203-219 *)
  Definition plot_quadratic_grids (f : fs V) (FS : fstruct) (a : arr V) (Which which : string) : figs :=
    figs_of (
      do AN <- extract_dimensions vint f (Some (path_rho_model FS)) None;
      let r := seq 0 (Z.to_nat (snd AN)) in
      Ok (figs_all (map (fun j =>
        let n1 := dec (Z.of_nat (fst j) + 1) in
        let n2 := dec (Z.of_nat (snd j) + 1) in
        figs_of (do g1 <- aslice a (fst j);
                 do g <- aslice g1 (snd j);
                 Ok (plot_single f FS g (which ++ "_quadratic_grid_D" ++ dec (id_data FS) ++ "_N" ++ n1 ++ "_N" ++ n2 ++ ".pdf")
                       (Which ++ " quadratic terms Grid (Modes " ++ n1 ++ n2 ++ ")"))))
        (list_prod r r)))).
  (** plot_quadratic_coupling, grid_plots.py:221-235 *)
  Definition plot_quadratic_coupling (f : fs V) (FS : fstruct) (models : list (key * jval V) * list (key * jval V)) : figs :=
    if dmem key_eqb (snd models) (KS (vmk_value G2_)) && dmem key_eqb (fst models) (KS (vmk_value G2_)) then
      figs_then (figs_of (do a <- parameter (fst models) G2_; Ok (plot_quadratic_grids f FS a "Original" "original")))
                (figs_of (do a <- parameter (snd models) G2_; Ok (plot_quadratic_grids f FS a "Coupled" "coupled")))
    else ([], Raise OtherException).

  (** automate_energy_grid_plots, generate_energy_plots.py:15-28, with systems.py:70-79 *)
  Definition grid_plots_of (cwd : string) (root_is_dir : bool) (f : fs V) (root : string) (d : Z) : figs :=
    figs_of (
      do p <- new_fs cwd root_is_dir [] root d 0 false;
      let FS := fst p in
      do models <- load_data f FS;
      Ok (figs_then (plot_energy f FS models) (plot_linear_coupling f FS models))).
  Definition automate_grid_plots (cwd host : string) (root_is_dir : bool) (f : fs V) (name : string) : figs :=
    figs_of (
      do _ <- passert (existsb (String.eqb name) art_names);
      do root <- choose_root art_root host;
      do ids <- (match dget String.eqb art_ids name with Some l => Ok l | None => Raise KeyError end);
      Ok (figs_all (map (grid_plots_of cwd root_is_dir f root) ids))).
End Grid.
Arguments figure : clear implicits.
Arguments figs : clear implicits.
