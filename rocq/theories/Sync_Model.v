(** Model of the synchronisation with a submitted job by signals,
    server/job_boss.py:71-86 (SIGUSR1_handle) and 103-139 (synchronize_with_job), and of
    vibronic/electronic_structure.py:270-292 (wait_on_results).

    The program has one thread.  A signal that arrives sets a note in the
    interpreter; the handler written in Python runs later, between two instructions.
    While the thread sleeps in sigwait the signal wakes it up and the handler is not
    called.  The handler is registered for SIGUSR1 only (electronic_structure.py:1633):
    a SIGALRM outside of sigwait has its default action, the end of the process. *)
From Verif Require Import Common PyStr_Model.
Local Open Scope string_scope.

(** where the program is in synchronize_with_job *)
Inductive place :=
  | Query     (* job_boss.py:108: before the first check_running_state *)
  | Enter     (* job_boss.py:110-111: before "with job_state_lock" *)
  | Check     (* job_boss.py:112: the lock is held, the flag has not been read *)
  | Decided   (* job_boss.py:114: the flag was false; the log message is written *)
  | Calling   (* job_boss.py:115: inside the call of sigwait, not yet asleep *)
  | Asleep    (* job_boss.py:115: asleep in sigwait *)
  | Leaving   (* job_boss.py:116-118: before the lock is released *)
  | Polling   (* job_boss.py:123-138: the loop *)
  | Ended (r : res unit).

(** job_boss.py:24-25 and the signals on their way *)
Record state := mkState {
  at_ : place;
  locked : bool;   (* job_state_lock *)
  flag : bool;     (* job_almost_done_flag *)
  noted : bool;    (* a SIGUSR1 has arrived, its handler has not been called *)
  alarm : bool;    (* signal.alarm is running *)
  killed : bool }.

(** what can happen *)
Inductive event :=
  | Main                         (* the program goes on *)
  | Answer (out err : string)    (* check_running_state, job_boss.py:96-100, returns *)
  | Usr1                         (* the job sends SIGUSR1 *)
  | Handler                      (* the interpreter calls SIGUSR1_handle *)
  | Ring.                        (* the alarm clock sends SIGALRM *)

Definition move (s : state) (p : place) : state := mkState p (locked s) (flag s) (noted s) (alarm s) (killed s).
Definition lock (s : state) (b : bool) : state := mkState (at_ s) b (flag s) (noted s) (alarm s) (killed s).

(** job_boss.py:71-86; the lock is taken by the handler only for one assignment *)
Definition handle (s : state) : state :=
  if locked s then mkState (at_ s) true true false true (killed s)
  else mkState (at_ s) false true false (alarm s) (killed s).

(** the interpreter calls handlers between instructions, not inside of sigwait *)
Definition in_sigwait (p : place) : bool := match p with Calling | Asleep => true | _ => false end.

(** one event; None if it cannot happen now *)
Definition step (s : state) (e : event) : option state :=
  if killed s then None else
  match e with
  | Usr1 =>
      match at_ s with
      | Asleep => Some (move s Leaving)
      | _ => Some (mkState (at_ s) (locked s) (flag s) true (alarm s) false)
      end
  | Ring =>
      if alarm s then
        match at_ s with
        | Asleep => Some (mkState Leaving (locked s) (flag s) (noted s) false false)
        | _ => Some (mkState (at_ s) (locked s) (flag s) (noted s) false true)
        end
      else None
  | Handler => if noted s && negb (in_sigwait (at_ s)) then Some (handle s) else None
  | Answer out err =>
      match at_ s with
      | Query => Some (move s (if String.eqb err "" then Enter else Ended (Raise OtherException)))
      | Polling => Some (move s (if contains "COMPLETED" out then Ended (Ok tt)
                                 else if String.eqb err "" then Polling else Ended (Raise OtherException)))
      | _ => None
      end
  | Main =>
      match at_ s with
      | Enter => if locked s then None else Some (lock (move s Check) true)
      | Check => Some (move s (if flag s then Leaving else Decided))
      | Decided => if noted s then None (* the handler is called first *) else Some (move s Calling)
      | Calling => Some (move s Asleep)
      | Leaving => Some (lock (move s Polling) false)
      | _ => None
      end
  end.
Fixpoint run (s : state) (l : list event) : option state :=
  match l with
  | [] => Some s
  | e :: l' => match step s e with Some s' => run s' l' | None => None end
  end.

(** the beginning of synchronize_with_job; [f]: the flag, set or not by earlier signals *)
Definition start (f : bool) : state := mkState Query false f false false false.

(** electronic_structure.py:270-292, after synchronize_with_job; [acct]: the answer of check_acct_state *)
Definition wait_on_results (sync : res unit) (acct : string) : res unit :=
  do _ <- sync;
  if contains "FAILED" acct then Raise OtherException
  else if negb (contains "COMPLETED" acct) then Raise OtherException
  else Ok tt.
