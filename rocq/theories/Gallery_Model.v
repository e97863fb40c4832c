(** Model of the example scripts that draw the pictures of the results:
    examples/paper_1.5025058/generate_z_plots.py:15-64, examples/artificial_systems/generate_z_plots.py:15-64
    and examples/paper_1.5025058/generate_plots.py:15-63.

    The files that are read do not change while the pictures are drawn.  What is loaded for a FileStructure
    (load_data, Plot_Model) is an argument; printing is left out. *)
From Coq Require Import QArith.
From Verif Require Import Common PyStr_Model FileName_Model Json_Model FileStruct_Model Results_Model Analysis_Model Plot_Model Chart_Model Submit_Model Submit2_Model Setup_Model Survey_Model.
Local Open Scope string_scope.
Local Open Scope list_scope.

(** the scripts: generate_z_plots.py of one of the examples, or generate_plots.py *)
Inductive script := PairsOf (e : example) | SinglesOfPaper.
Definition example_of (s : script) : example := match s with PairsOf e => e | SinglesOfPaper => Paper end.

Section Gallery.
  Variable F : Type.
  Variable zero : F.
  Variable of_int : Z -> res F.
  Variable of_repr : string -> F.
  Variable div : F -> F -> F.
  Variable beta : Q -> F.
  Variable sci : Z -> string.
  Variable dims : fstruct -> res (Z * Z).
  (** the hash, the files, the names in a directory, the hashes in a file *)
  Variable H : string -> string.
  Variable fs : fsys string.
  Variable listing : string -> list string.
  Variable hashes : hashes_of.
  (** load_data: the analytical values and the array of one FileStructure *)
  Variable load : prepared -> res (list (string * json) * grid F).
  (** the outcome of load_latex_module_on_server() and the flag for percentages *)
  Variable latex : res unit.
  Variable percent : bool.

  Definition load_drawn (x : prepared) : res (drawn F) :=
    do og <- load x; Ok (fst (fst x), snd x, fst og, snd og).
  (** generate_z_plots.py:28-30: plot_original_Z_vs_diagonal_test([FS0, FSX]), load_data(), plot() *)
  Definition draw_pair (f0 fx : fstruct) : charts F :=
    match (do l <- init_pair H fs listing hashes (ListFS [f0; fx]); map_res load_drawn l) with
    | Raise e => ([], Raise e)
    | Ok [a; b] => plot_pair F zero of_int of_repr div beta sci dims latex percent a b
    | Ok _ => ([], Raise OtherException)
    end.
  (** generate_plots.py:27-29: plot_Z_test(FS), load_data(), plot() *)
  Definition draw_single (f : fstruct) : charts F :=
    match (do l <- init_single H fs listing hashes (OneFS f); map_res load_drawn l) with
    | Raise e => ([], Raise e)
    | Ok [a] => plot_Z_test F of_int div beta sci latex (fst (fst (fst a))) (snd (fst (fst a))) (snd a)
    | Ok _ => ([], Raise OtherException)
    end.

  (** the block of the try statement, generate_z_plots.py:25-31 and generate_plots.py:25-30: the directories and
      the pictures when it is left, and how it is left *)
  Definition attempt (s : script) (cwd root : string) (is_dir : bool) (ds : dirs) (d r : Z) : dirs * charts F :=
    match s with
    | PairsOf _ =>
        match new_fs cwd is_dir ds root d 0 false with
        | Raise e => (ds, ([], Raise e))
        | Ok (f0, ds0) => match new_fs cwd is_dir ds0 root d r false with
                          | Raise e => (ds0, ([], Raise e))
                          | Ok (fx, ds1) => (ds1, draw_pair f0 fx)
                          end
        end
    | SinglesOfPaper =>
        match new_fs cwd is_dir ds root d r false with
        | Raise e => (ds, ([], Raise e))
        | Ok (f, ds0) => (ds0, draw_single f)
        end
    end.
  (** generate_z_plots.py:23-34 and generate_plots.py:23-33: exceptions are printed only *)
  Fixpoint attempts (s : script) (cwd root : string) (is_dir : bool) (ds : dirs) (l : list (Z * Z)) : dirs * list (chart F) :=
    match l with
    | [] => (ds, [])
    | (d, r) :: l' =>
        let '(ds1, (cs, _)) := attempt s cwd root is_dir ds d r in
        let '(ds2, cs2) := attempts s cwd root is_dir ds1 l' in
        (ds2, cs ++ cs2)
    end.
  (** automate_simple_z_plots, generate_z_plots.py:15-35 and generate_plots.py:15-34 *)
  Definition automate_plots (s : script) (cwd host : string) (is_dir : bool) (ds : dirs) (name : string) : dirs * list (chart F) * res unit :=
    if existsb (String.eqb name) (ex_names (example_of s)) then
      match choose_root (ex_root (example_of s)) host with
      | Raise e => (ds, [], Raise e)
      | Ok root => (attempts s cwd root is_dir ds (survey_pairs (example_of s) name), Ok tt)
      end
    else (ds, [], Raise AssertionError).
  (** generate_z_plots.py:38-55: the pictures of the processes, one for each system *)
  Definition processes (s : script) (cwd host : string) (is_dir : bool) : list (list (chart F)) :=
    map (fun name => snd (fst (automate_plots s cwd host is_dir [] name))) (ex_names (example_of s)).
End Gallery.

(** the file at a path after some pictures have been saved *)
Fixpoint on_disk {F} (l : list (chart F)) (p : string) : option (chart F) :=
  match l with
  | [] => None
  | c :: l' => match on_disk l' p with Some x => Some x | None => if String.eqb (ch_path F c) p then Some c else None end
  end.
