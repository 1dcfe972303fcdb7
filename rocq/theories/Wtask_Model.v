(** Model of the scheduler in timedtask.c as it is compiled for Windows, and of the message queue winmsgque.c it is fed by. *)
From Verif Require Import Base Queue_Model.

(** TaskInfo, timedtask.c 8-26, with DWORD times in milliseconds.  The function and its arguments are a number.  [wt_due] is not
    in the program: it is the moment before which the task must not run, for stating the property. *)
Record wtask := mk_wtask { wt_id : Z; wt_timeout : Z; wt_left : Z; wt_persistent : bool; wt_async : bool; wt_due : Z }.
(** A store to LeftTime, timedtask.c 84-89. *)
Definition wt_set (l : Z) (t : wtask) : wtask := mk_wtask (wt_id t) (wt_timeout t) l (wt_persistent t) (wt_async t) (wt_due t).
(** A difference of two DWORDs as an int, timedtask.c 388. *)
Definition int_of (d : Z) : Z := let w := d mod 4294967296 in if w <? 2147483648 then w else w - 4294967296.
(** Compare, timedtask.c 384-392. *)
Definition wt_compare (a b : wtask) : Z := int_of (wt_left a - wt_left b).
(** TimedTask_Add 330-382: the record that is posted at time [now]. *)
Definition wt_make (now id ms : Z) (persistent async immediate : bool) : wtask :=
  let l := if immediate then 0 else ms in mk_wtask id ms l persistent async (now + l).
(** TimeTask_ReduceTime 71-91. *)
Definition wt_reduce (d : Z) (q : list wtask) : list wtask :=
  map (fun t => wt_set (if wt_left t <? d then 0 else wt_left t - d) t) q.
(** The end of TimeTask_RunTack 130-132: a periodic task gets its full time again. *)
Definition wt_again (now : Z) (t : wtask) : wtask :=
  mk_wtask (wt_id t) (wt_timeout t) (wt_timeout t) (wt_persistent t) (wt_async t) (now + wt_timeout t).
(** Where the scheduler's thread is, timedtask.c 164-239: at the top of the loop; in WaitForSingleObject (winmsgque.c 37), with
    the task it took from the queue, since when; after it with the event received (39-54), before the lock is taken; in a task it runs itself. *)
Inductive wphase :=
| Top
| Waiting (held : option wtask) (start : Z)
| Woken (held : option wtask)
| Running (t : wtask).
(** The program: the clock (milliseconds), TimeQueue, the messages, the event, the thread of the scheduler with its variable
    ElapsedTime, the tasks that run in threads of their own; the starts of tasks and the tasks that are over are recorded.
    timedtask.c 28-32 and 164-172, winmsgque.h 10-19. *)
Record wsched := mk_wsched { ws_now : Z; ws_queue : list wtask; ws_msgs : list wtask; ws_event : bool; ws_phase : wphase; ws_elapsed : Z;
  ws_flight : list wtask; ws_runs : list (wtask * Z); ws_over : list wtask }.
(** TimedTask_Init 403-434 with WinMsgQue_Init, winmsgque.c 77-97: no task, the event is not set (CreateEvent with FALSE, FALSE: it is
    reset by the wait that sees it). *)
Definition ws_init (now : Z) : wsched := mk_wsched now [] [] false Top 0 [] [] [].
(** WinMsgQue_Post, winmsgque.c 5-16, with Compare 66-69, which is always 0.  The node can be allocated.  Adding the message and setting the event
    is one step: they are done under the lock that every access to the messages takes, and a wait can only see the event. *)
Definition ws_post (m : wtask) (s : wsched) : wsched :=
  mk_wsched (ws_now s) (ws_queue s) (q_add (fun _ _ => 0) m (ws_msgs s)) true (ws_phase s) (ws_elapsed s) (ws_flight s) (ws_runs s) (ws_over s).
(** timedtask.c 211-238: a message came, [h] is the task taken from the queue before, [q] the rest of the queue, [ms] the other messages. *)
Definition ws_new (h : option wtask) (q : list wtask) (n : wtask) (ms : list wtask) (el : Z) (s : wsched) : wsched :=
  let q2 := match h with Some i => wt_reduce el (q_add wt_compare i q) | None => q end in
  mk_wsched (ws_now s) (q_add wt_compare n q2) ms (ws_event s) Top el (ws_flight s) (ws_runs s) (ws_over s).
(** timedtask.c 191-209: no message, the task is run.  In a thread of its own, or in this one: then until [Done]. *)
Definition ws_start (h : option wtask) (q : list wtask) (el : Z) (s : wsched) : wsched :=
  let q1 := wt_reduce el q in
  match h with
  | None => mk_wsched (ws_now s) q1 (ws_msgs s) (ws_event s) Top el (ws_flight s) (ws_runs s) (ws_over s)
  | Some t => let runs := (t, ws_now s) :: ws_runs s in
              if wt_async t then mk_wsched (ws_now s) q1 (ws_msgs s) (ws_event s) Top el (t :: ws_flight s) runs (ws_over s)
              else mk_wsched (ws_now s) q1 (ws_msgs s) (ws_event s) (Running t) el (ws_flight s) runs (ws_over s)
  end.
(** What happens: time passes; a thread adds a task; a task in a thread of its own ends; the scheduler takes the first task and looks
    for a message; its wait sees the event; its wait is over because of the time; it looks for the message; the task it runs itself ends.
    timedtask.c 164-382. *)
Inductive wevent :=
| WPass (d : Z)
| WPost (id ms : Z) (persistent async immediate : bool)
| WFinish (k : nat)
| WPeek
| WSignal
| WTimeout
| WTake
| WDone.
(** One event; [None]: it cannot happen in that state.  WPost: TimedTask_Add 330-382.  WFinish: TimeTask_RunTack 126-157 in a thread.
    WPeek: timedtask.c 176-189 and winmsgque.c 24-36.  WSignal: 37-49, where the measured time is a 32-bit difference (ptimer.c 21-28).  WTimeout: 55-61.
    WTake: 51-53 and what follows in timedtask.c 186-238.  WDone: TimeTask_RunTack for a task of the scheduler's thread.  A message
    that is found at once leaves the time to wait as it is, so that timedtask.c 188 gives 0; without a task ElapsedTime stays as it was. *)
Definition ws_step (s : wsched) (e : wevent) : option wsched :=
  match e with
  | WPass d => if 0 <=? d then Some (mk_wsched (ws_now s + d) (ws_queue s) (ws_msgs s) (ws_event s) (ws_phase s) (ws_elapsed s) (ws_flight s) (ws_runs s) (ws_over s)) else None
  | WPost id ms p a im => if (0 <=? ms) && (ms <? 2147483648) then Some (ws_post (wt_make (ws_now s) id ms p a im) s) else None
  | WFinish k =>
    match nth_error (ws_flight s) k with
    | None => None
    | Some t => let fl := firstn k (ws_flight s) ++ skipn (S k) (ws_flight s) in
                let s1 := mk_wsched (ws_now s) (ws_queue s) (ws_msgs s) (ws_event s) (ws_phase s) (ws_elapsed s) fl (ws_runs s) in
                Some (if wt_persistent t then ws_post (wt_again (ws_now s) t) (s1 (ws_over s)) else s1 (t :: ws_over s))
    end
  | WPeek =>
    match ws_phase s with
    | Top => let (h, q) := q_get (ws_queue s) in
             match q_get (ws_msgs s) with
             | (Some n, ms) => Some (ws_new h q n ms (match h with Some t => wt_left t - wt_left t | None => ws_elapsed s end) s)
             | (None, ms) => Some (mk_wsched (ws_now s) q ms (ws_event s) (Waiting h (ws_now s)) (ws_elapsed s) (ws_flight s) (ws_runs s) (ws_over s))
             end
    | _ => None
    end
  | WSignal =>
    match ws_phase s with
    | Waiting h start =>
      if ws_event s then
        let el := (ws_now s - start) mod 4294967296 in
        let (h1, d) := match h with
                       | Some t => let l := if wt_left t <? el then 0 else wt_left t - el in (Some (wt_set l t), wt_left t - l)
                       | None => (None, ws_elapsed s)
                       end in
        Some (mk_wsched (ws_now s) (ws_queue s) (ws_msgs s) false (Woken h1) d (ws_flight s) (ws_runs s) (ws_over s))
      else None
    | _ => None
    end
  | WTimeout =>
    match ws_phase s with
    | Waiting (Some t) start =>
      if wt_left t <=? ws_now s - start then Some (ws_start (Some (wt_set 0 t)) (ws_queue s) (wt_left t - 0) s) else None
    | _ => None
    end
  | WTake =>
    match ws_phase s with
    | Woken h => match q_get (ws_msgs s) with
                 | (Some n, ms) => Some (ws_new h (ws_queue s) n ms (ws_elapsed s) s)
                 | (None, _) => Some (ws_start h (ws_queue s) (ws_elapsed s) s)
                 end
    | _ => None
    end
  | WDone =>
    match ws_phase s with
    | Running t => Some (if wt_persistent t then mk_wsched (ws_now s) (q_add wt_compare (wt_again (ws_now s) t) (ws_queue s)) (ws_msgs s) (ws_event s) Top (ws_elapsed s) (ws_flight s) (ws_runs s) (ws_over s)
                         else mk_wsched (ws_now s) (ws_queue s) (ws_msgs s) (ws_event s) Top (ws_elapsed s) (ws_flight s) (ws_runs s) (t :: ws_over s))
    | _ => None
    end
  end.
(** A sequence of events, timedtask.c 164-382. *)
Fixpoint ws_run (s : wsched) (es : list wevent) : option wsched :=
  match es with [] => Some s | e :: es' => match ws_step s e with None => None | Some s1 => ws_run s1 es' end end.
