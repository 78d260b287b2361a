(** Model of src/1-oslib/TCrew.c: a labelled transition system.  A critical section under lockCrew is one atomic step
    (mutual exclusion of the mutex is trusted), every access outside it is a step of its own.  Jobs are numbered by the order
    in which TCrew_Task_Enqueue was called.  Simplifications: poll_index is only kept as its sign; the two counters (int) do
    not overflow (2^31 jobs between two waits); the load statistics that decide whether a thread retires (lines 35-58) are an
    arbitrary choice; jobs finish and do not themselves call into the crew. *)
From Coq Require Import List Arith Lia Bool.
From Verif Require Import Base.
Import ListNotations.
Local Open Scope nat_scope.

(** TCrewMember_t.taskproc: a job, or TCrew_Task_ThreadExit (lines 83-90) *)
Inductive task := Job (j : nat) | ThreadExit.
(** program counter of the thread serving a member: none (poll_index = -1); at the top of the loop or woken, about to take the
    lock (line 16); blocked in TCrewCondVar_Wait (line 21); lock released, about to call taskproc (line 27); inside job j;
    returned, about to clear taskproc (line 28); about to count the completion (line 31); past it (line 36); about to
    relinquish (line 60); ended but not yet joined *)
Inductive mpc := PNone | PTop | PSleep | PExec | PRun (j : nat) | PClear | PCount | PStat | PRetire | PEnded.
Record member := Mem { busy : bool; alive : bool (* poll_index >= 0 *); tsk : option task; pc : mpc }.
(** a TCrew_Task_Enqueue call underway: wants the lock, blocked on `avail' (line 267), placed and about to signal (line 286) *)
Inductive call := ETry (j : nat) | ESleep (j : nat) | ESig (i j : nat).
(** a TCrew_Callback_Wait call: entered, re-testing for the snapshot ret, blocked on `avail' *)
Inductive wcall := WStart | WTry (ret : nat) | WSleep (ret : nat).
(** what is observable: Enqueue of j called / returned, job j entered / left, Wait called its callback and returned n *)
Inductive event := Called (j : nat) | Enqueued (j : nat) | Start (j : nat) | Finish (j : nat) | Callback (n : nat).
Record crew := Crew { members : list member; cntEnqueued : nat; cntCompleted : nat;
  retired : nat; (* threads past line 71, whose broadcast is still to come *)
  calls : list call; waiting : option wcall; next : nat; hist : list event }.

(** TCrew_Init, lines 133-206: the first two members have threads *)
Definition m_init (i : nat) : member := if i <? 2 then Mem false true None PTop else Mem false false None PNone.
Definition crew_init (n : nat) : crew := Crew (map m_init (seq 0 n)) 0 0 0 [] None 0 [].

Definition set_members s l := Crew l (cntEnqueued s) (cntCompleted s) (retired s) (calls s) (waiting s) (next s) (hist s).
Definition set_calls s c := Crew (members s) (cntEnqueued s) (cntCompleted s) (retired s) c (waiting s) (next s) (hist s).
Definition set_waiting s w := Crew (members s) (cntEnqueued s) (cntCompleted s) (retired s) (calls s) w (next s) (hist s).
Definition set_retired s n := Crew (members s) (cntEnqueued s) (cntCompleted s) n (calls s) (waiting s) (next s) (hist s).
Definition log s e := Crew (members s) (cntEnqueued s) (cntCompleted s) (retired s) (calls s) (waiting s) (next s) (hist s ++ [e]).
(** TCrewCondVar_Broadcast(&crew->avail): everybody blocked on it contends for the lock again *)
Definition wake_call c := match c with ESleep j => ETry j | _ => c end.
Definition wake_wait w := match w with Some (WSleep r) => Some (WTry r) | _ => w end.
Definition broadcast s := Crew (members s) (cntEnqueued s) (cntCompleted s) (retired s) (map wake_call (calls s)) (wake_wait (waiting s)) (next s) (hist s).
(** TCrewCondVar_Signal(&cm->wake) *)
Definition wake_member m := Mem (busy m) (alive m) (tsk m) (match pc m with PSleep => PTop | p => p end).
(** lines 259-266: the first member that is not busy *)
Fixpoint first_free (l : list member) (i : nat) : option nat :=
  match l with [] => None | m :: l => if busy m then first_free l (S i) else Some i end.
(** lines 272-284: hand task t to member m; a thread is created if it has none *)
Definition assign t m := Mem true true (Some t) (if alive m then pc m else PTop).
Definition remove_nth {A} k (l : list A) := firstn k l ++ skipn (S k) l.

(** a new call by the user: Enqueue only when no Wait is underway, Wait only when no other call is (TCrew-common.h:36-38) *)
Inductive call_step : crew -> crew -> Prop :=
| c_enqueue s : waiting s = None ->
    call_step s (Crew (members s) (cntEnqueued s) (cntCompleted s) (retired s) (calls s ++ [ETry (next s)]) None (S (next s)) (hist s ++ [Called (next s)]))
| c_wait s : waiting s = None -> calls s = [] -> call_step s (set_waiting s (Some WStart)).

(** a step of the library *)
Inductive work_step : crew -> crew -> Prop :=
(* lines 255-285, a member is free *)
| w_place s k j i m : nth_error (calls s) k = Some (ETry j) -> first_free (members s) 0 = Some i -> nth_error (members s) i = Some m ->
    work_step s (Crew (upd i (assign (Job j) m) (members s)) (S (cntEnqueued s)) (cntCompleted s) (retired s) (upd k (ESig i j) (calls s)) (waiting s) (next s) (hist s))
(* line 267 *)
| w_full s k j : nth_error (calls s) k = Some (ETry j) -> first_free (members s) 0 = None -> work_step s (set_calls s (upd k (ESleep j) (calls s)))
(* lines 286-288 *)
| w_signal s k i j m : nth_error (calls s) k = Some (ESig i j) -> nth_error (members s) i = Some m ->
    work_step s (log (set_members (set_calls s (remove_nth k (calls s))) (upd i (wake_member m) (members s))) (Enqueued j))
(* lines 295-298; the code goes on to line 300 without releasing the lock, here others may step in between *)
| w_snapshot s : waiting s = Some WStart -> work_step s (set_waiting s (Some (WTry (cntEnqueued s))))
(* lines 300-302 *)
| w_block s r : waiting s = Some (WTry r) -> cntCompleted s < r -> work_step s (set_waiting s (Some (WSleep r)))
(* lines 300, 306-311 *)
| w_callback s r : waiting s = Some (WTry r) -> r <= cntCompleted s ->
    work_step s (log (Crew (members s) (cntEnqueued s - r) (cntCompleted s - r) (retired s) (calls s) None (next s) (hist s)) (Callback r))
(* lines 16-21: nothing to do *)
| w_idle s i m : nth_error (members s) i = Some m -> pc m = PTop -> tsk m = None ->
    work_step s (broadcast (set_members s (upd i (Mem false (alive m) None PSleep) (members s))))
(* lines 16-24: a task *)
| w_take s i m t : nth_error (members s) i = Some m -> pc m = PTop -> tsk m = Some t ->
    work_step s (set_members s (upd i (Mem (busy m) (alive m) (tsk m) PExec) (members s)))
(* line 27: the job is entered, and left *)
| w_start s i m j : nth_error (members s) i = Some m -> pc m = PExec -> tsk m = Some (Job j) ->
    work_step s (log (set_members s (upd i (Mem (busy m) (alive m) (tsk m) (PRun j)) (members s))) (Start j))
| w_finish s i m j : nth_error (members s) i = Some m -> pc m = PRun j ->
    work_step s (log (set_members s (upd i (Mem (busy m) (alive m) (tsk m) PClear) (members s))) (Finish j))
(* line 28 *)
| w_clear s i m : nth_error (members s) i = Some m -> pc m = PClear ->
    work_step s (set_members s (upd i (Mem (busy m) (alive m) None PCount) (members s)))
(* lines 31-33 *)
| w_count s i m : nth_error (members s) i = Some m -> pc m = PCount ->
    work_step s (Crew (upd i (Mem (busy m) (alive m) (tsk m) PStat) (members s)) (cntEnqueued s) (S (cntCompleted s)) (retired s) (calls s) (waiting s) (next s) (hist s))
(* lines 36-58 and 76: go on *)
| w_again s i m : nth_error (members s) i = Some m -> pc m = PStat ->
    work_step s (set_members s (upd i (Mem (busy m) (alive m) (tsk m) PTop) (members s)))
(* lines 43, 58: only threads after the first two *)
| w_relinquish s i m : nth_error (members s) i = Some m -> pc m = PStat -> 2 <= i ->
    work_step s (set_members s (upd i (Mem (busy m) (alive m) (tsk m) PRetire) (members s)))
(* lines 60-71 *)
| w_retire s i m : nth_error (members s) i = Some m -> pc m = PRetire ->
    work_step s (set_retired (set_members s (upd i (Mem false false (tsk m) PNone) (members s))) (S (retired s)))
(* line 72 *)
| w_bye s n : retired s = S n -> work_step s (broadcast (set_retired s n))
(* lines 83-90, called from line 27 *)
| w_exit s i m : nth_error (members s) i = Some m -> pc m = PExec -> tsk m = Some ThreadExit ->
    work_step s (set_members s (upd i (Mem false false (tsk m) PEnded) (members s))).

(** TCrewCondVar_Wait may return for no reason *)
Inductive spurious_step : crew -> crew -> Prop :=
| p_member s i m : nth_error (members s) i = Some m -> pc m = PSleep -> spurious_step s (set_members s (upd i (wake_member m) (members s)))
| p_call s k j : nth_error (calls s) k = Some (ESleep j) -> spurious_step s (set_calls s (upd k (ETry j) (calls s)))
| p_wait s r : waiting s = Some (WSleep r) -> spurious_step s (set_waiting s (Some (WTry r))).

Definition step s s' := call_step s s' \/ work_step s s' \/ spurious_step s s'.
(** any history of calls under any schedule, on a crew of n members *)
Inductive reach (n : nat) : crew -> Prop :=
| r_init : reach n (crew_init n)
| r_step s s' : reach n s -> step s s' -> reach n s'.

(** line 279 when the thread cannot be created: its result is not looked at *)
Inductive create_failure : crew -> crew -> Prop :=
| f_place s k j i m : nth_error (calls s) k = Some (ETry j) -> first_free (members s) 0 = Some i -> nth_error (members s) i = Some m -> alive m = false ->
    create_failure s (Crew (upd i (Mem true true (Some (Job j)) PNone) (members s)) (S (cntEnqueued s)) (cntCompleted s) (retired s) (upd k (ESig i j) (calls s)) (waiting s) (next s) (hist s)).

(** TCrew_Destroy, lines 213-248: wants the lock; at member i holding it; unlocked, about to signal member i; joining it; returned *)
Inductive dpc := DLock (i : nat) | DScan (i : nat) | DSignal (i : nat) | DJoin (i : nat) | DReturned.
Definition holds_lock d := match d with DScan _ => true | _ => false end.
Inductive destroy_step : crew * dpc -> crew * dpc -> Prop :=
| d_other s s' d : work_step s s' \/ spurious_step s s' -> holds_lock d = false -> destroy_step (s, d) (s', d)
(* lines 218, 232 *)
| d_lock s i : destroy_step (s, DLock i) (s, DScan i)
(* line 234 *)
| d_skip s i m : nth_error (members s) i = Some m -> alive m = false -> destroy_step (s, DScan i) (s, DScan (S i))
(* lines 223-229 *)
| d_hit s i m : nth_error (members s) i = Some m -> alive m = true ->
    destroy_step (s, DScan i) (set_members s (upd i (Mem (busy m) (alive m) (Some ThreadExit) (pc m)) (members s)), DSignal i)
(* line 230 *)
| d_signal s i m : nth_error (members s) i = Some m -> destroy_step (s, DSignal i) (set_members s (upd i (wake_member m) (members s)), DJoin i)
(* line 231 *)
| d_joined s i m : nth_error (members s) i = Some m -> pc m = PEnded -> destroy_step (s, DJoin i) (set_members s (upd i (Mem (busy m) (alive m) (tsk m) PNone) (members s)), DLock (S i))
(* lines 237-248 *)
| d_done s : destroy_step (s, DScan (length (members s))) (s, DReturned).
