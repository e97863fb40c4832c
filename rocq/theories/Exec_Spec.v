(** Notions used to state the properties of the electronic structure workflow. *)
From Verif Require Import Common PyStr_Model JobBoss_Model Exec_Model.
Local Open Scope nat_scope.

(** the order of the stages *)
Definition order : list stage := [OPT; NIP; VIB; IPEOMCC; PREPVIB; VIBRON; FINISHED].
Fixpoint position (l : list stage) (s : stage) : nat :=
  match l with
  | [] => 0
  | t :: l' => match s, t with
               | OPT, OPT | NIP, NIP | VIB, VIB | IPEOMCC, IPEOMCC | PREPVIB, PREPVIB | VIBRON, VIBRON | FINISHED, FINISHED => 0
               | _, _ => S (position l' s)
               end
  end.
(** the stages from s up to, not including, s' *)
Definition between (s s' : stage) : list stage := firstn (position order s' - position order s) (skipn (position order s) order).
(** s' is not before s *)
Definition not_before (s s' : stage) : Prop := position order s <= position order s'.
(** the line that records a stage *)
Definition line (s : stage) : string := (sname s ++ nl)%string.
(** the lines that record several *)
Definition lines (l : list stage) : string := String.concat "" (map line l).

(** the events of one completed calculation *)
Definition did (s : stage) (nip : option Z) : list event := [Started s nip; Completed s nip].
(** the events of completed stages, when the numbers of states [ips] were tried *)
Definition events (ips : list Z) (l : list stage) : list event :=
  flat_map (fun s => match s with IPEOMCC => flat_map (fun z => did IPEOMCC (Some z)) ips | _ => did s None end) l.
(** n, n-1, .., k terms *)
Fixpoint down (n : Z) (k : nat) : list Z :=
  match k with O => [] | S k => n :: down (n - 1) k end.

(** the result of the calculation that belongs to a stage *)
Definition outcome (w : world) (s : stage) (nip : Z) : res unit :=
  match s with
  | OPT => w_geom w | NIP => w_hf w | VIB => w_vib w | IPEOMCC => w_ip w nip
  | PREPVIB => w_prep w | VIBRON => w_vibron w | FINISHED => Raise OtherException
  end.

(** lines that are skipped when the state file is read *)
Definition skipped (l : string) : Prop := l = ""%string \/ l = nl.
(** a parameter file: comments, blank lines, and headers followed by a value *)
Inductive reads : list string -> list (string * string) -> Prop :=
| reads_end : reads [] []
| reads_comment l ls es : String.prefix "#" l = true -> reads ls es -> reads (l :: ls) es
| reads_blank l ls es : strip l = ""%string -> reads ls es -> reads (l :: ls) es
| reads_entry h v ls es : strip h <> ""%string -> String.prefix "#" h = false -> reads ls es ->
    reads (h :: v :: ls) ((strip h, strip v) :: es).
