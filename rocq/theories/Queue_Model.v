(** Model of linkedqueue.c, of the scheduler in timedtask.c (the branch for systems other than Windows) and of IsPrime and
    FindNextPrime of utils.c. *)
From Verif Require Import Base.

(** * linkedqueue.c *)
(** The chain of nodes, linkedqueue.h, is a list; a node can always be allocated.  LinkedQueue_Add 4-41: the node becomes the
    first if the queue is empty or the first item is not less; else the loop 31-34 goes on while the next item is less. *)
Fixpoint q_insert {A} (cmp : A -> A -> Z) (x : A) (q : list A) : list A :=
  match q with
  | [] => [x]
  | y :: q' => if 0 <? cmp x y then y :: q_insert cmp x q' else x :: q
  end.
(** LinkedQueue_Add, linkedqueue.c 4-41. *)
Definition q_add {A} (cmp : A -> A -> Z) (x : A) (q : list A) : list A :=
  match q with
  | [] => [x]
  | y :: q' => if cmp x y <=? 0 then x :: q else y :: q_insert cmp x q'
  end.
(** LinkedQueue_Get 43-61. *)
Definition q_get {A} (q : list A) : option A * list A :=
  match q with [] => (None, []) | x :: q' => (Some x, q') end.

(** * timedtask.c *)
(** struct timeval: seconds and microseconds. timedtask.c 37-67. *)
Definition tv : Type := Z * Z.
(** Tv_Comapre 37-45 (the differences fit into an int for times below 2^31 s). *)
Definition tv_compare (a b : tv) : Z := if fst a =? fst b then snd a - snd b else fst a - fst b.
(** Tv_Subtract 47-67. *)
Definition tv_subtract (a b : tv) : tv :=
  if tv_compare a b <=? 0 then (0, 0)
  else if snd b <=? snd a then (fst a - fst b, snd a - snd b)
  else (fst a - (1 + fst b), 1000000 - snd b + snd a).
(** TaskInfo 8-26.  The function and its arguments are a number.  [ti_due] is not in the program: it is the moment before which
    the task must not run, for stating the property. *)
Record task := mk_task { ti_id : Z; ti_timeout : tv; ti_left : tv; ti_persistent : bool; ti_async : bool; ti_due : Z }.
(** Compare 384-392. *)
Definition ti_compare (a b : task) : Z := tv_compare (ti_left a) (ti_left b).
(** Microseconds in a timeval. timedtask.c 330-382. *)
Definition usec (t : tv) : Z := fst t * 1000000 + snd t.
(** TimedTask_Add 330-382: the record that is written to the pipe at time [now]. *)
Definition tt_make (now : Z) (id : Z) (ms : Z) (persistent async immediate : bool) : task :=
  let t := (Z.quot ms 1000, Z.rem ms 1000 * 1000) in
  let l := if immediate then (0, 0) else t in
  mk_task id t l persistent async (now + usec l).
(** TimeTask_ReduceTime 93-114. *)
Definition tt_reduce (d : tv) (q : list task) : list task :=
  map (fun t => mk_task (ti_id t) (ti_timeout t) (tv_subtract (ti_left t) d) (ti_persistent t) (ti_async t) (ti_due t)) q.
(** The program: the clock, the time queue, the pipe, the tasks that run in threads of their own; the tasks that were started
    ([st_runs], with the moment) and the ones that are over are recorded. timedtask.c 1-35 and 164-328. *)
Record sched := mk_sched { st_now : Z; st_queue : list task; st_pipe : list task; st_flight : list task; st_runs : list (task * Z); st_over : list task }.
(** TimedTask_Init, timedtask.c 403-434. *)
Definition tt_init (now : Z) : sched := mk_sched now [] [] [] [] [].
(** What happens: time passes while the scheduler waits or works; a thread adds a task; a task that runs in a thread of its own
    ends; select returns 0; select says that the pipe can be read, with the remaining time it stores (Linux). *)
Inductive event :=
| Pass (d : Z)
| Post (id ms : Z) (persistent async immediate : bool)
| Finish (k : nat)
| Expire (d : Z) (work : Z)
| Wake (d : Z) (rest : tv).
(** The end of TimeTask_RunTack 126-157: a periodic task gets its full time again. *)
Definition tt_again (now : Z) (t : task) : task :=
  mk_task (ti_id t) (ti_timeout t) (ti_timeout t) (ti_persistent t) (ti_async t) (now + usec (ti_timeout t)).
(** One event; [None]: it cannot happen in that state.  Pass: time only.  Post: TimedTask_Add with a write to the pipe (of the
    whole record: it is shorter than PIPE_BUF).  Finish: RunTack in a thread.  Expire and Wake: one turn of the loop 254-326, of
    which select takes [d] microseconds; Expire needs a task to wait for and the whole of its time; Wake needs something in
    the pipe.  The rest of the loop after select takes no time unless a task runs in it ([work]). *)
Definition tt_step (s : sched) (e : event) : option sched :=
  match e with
  | Pass d => if 0 <=? d then Some (mk_sched (st_now s + d) (st_queue s) (st_pipe s) (st_flight s) (st_runs s) (st_over s)) else None
  | Post id ms p a im => if 0 <=? ms then Some (mk_sched (st_now s) (st_queue s) (st_pipe s ++ [tt_make (st_now s) id ms p a im]) (st_flight s) (st_runs s) (st_over s)) else None
  | Finish k =>
    match nth_error (st_flight s) k with
    | None => None
    | Some t => let fl := firstn k (st_flight s) ++ skipn (S k) (st_flight s) in
                Some (if ti_persistent t then mk_sched (st_now s) (st_queue s) (st_pipe s ++ [tt_again (st_now s) t]) fl (st_runs s) (st_over s)
                      else mk_sched (st_now s) (st_queue s) (st_pipe s) fl (st_runs s) (t :: st_over s))
    end
  | Expire d work =>
    match q_get (st_queue s) with
    | (None, _) => None
    | (Some t, q) =>
      if (usec (ti_left t) <=? d) && (0 <=? work) then
        let elapsed := tv_subtract (ti_left t) (0, 0) in
        let q1 := tt_reduce elapsed q in
        let now := st_now s + d in
        let runs := (t, now) :: st_runs s in
        Some (if ti_async t then mk_sched now q1 (st_pipe s) (t :: st_flight s) runs (st_over s)
              else if ti_persistent t then mk_sched (now + work) (q_add ti_compare (tt_again (now + work) t) q1) (st_pipe s) (st_flight s) runs (st_over s)
              else mk_sched (now + work) q1 (st_pipe s) (st_flight s) runs (t :: st_over s))
      else None
    end
  | Wake d rest =>
    match st_pipe s with
    | [] => None
    | n :: pipe =>
      if 0 <=? d then
        match q_get (st_queue s) with
        | (None, _) => Some (mk_sched (st_now s + d) (q_add ti_compare n []) pipe (st_flight s) (st_runs s) (st_over s))
        | (Some t, q) =>
          if (0 <=? fst rest) && (0 <=? snd rest) && (snd rest <? 1000000) && (usec rest <=? usec (ti_left t)) && (usec (ti_left t) - usec rest <=? d) then
            let elapsed := tv_subtract (ti_left t) rest in
            let q1 := tt_reduce elapsed q in
            let t1 := mk_task (ti_id t) (ti_timeout t) rest (ti_persistent t) (ti_async t) (ti_due t) in
            Some (mk_sched (st_now s + d) (q_add ti_compare t1 (q_add ti_compare n q1)) pipe (st_flight s) (st_runs s) (st_over s))
          else None
        end
      else None
    end
  end.
(** A sequence of events, timedtask.c 164-382. *)
Fixpoint tt_run (s : sched) (es : list event) : option sched :=
  match es with [] => Some s | e :: es' => match tt_step s e with None => None | Some s1 => tt_run s1 es' end end.

(** * utils.c *)
(** IsPrime 707-735.  [i < sqrt(n) + 1] is computed in doubles; below 2^31 a root that is no whole number is away from every
    whole number by far more than a double's precision, so this is [i - 1 < root of n]. *)
Fixpoint is_prime_loop (fuel : nat) (n i : Z) : outcome bool :=
  match fuel with
  | O => Fuel
  | S fuel => if (i - 1) * (i - 1) <? n then (if n mod i =? 0 then Ret false else is_prime_loop fuel n (i + 2)) else Ret true
  end.
(** IsPrime, utils.c 707-735. *)
Definition is_prime (fuel : nat) (n : Z) : outcome bool :=
  if n <? 2 then Ret false else if n =? 2 then Ret true else if n mod 2 =? 0 then Ret false else is_prime_loop fuel n 3.
(** FindNextPrime 737-756, with ROUND_UP of utils.h 11. *)
Fixpoint next_prime_loop (fuel : nat) (c : Z) : outcome Z :=
  match fuel with
  | O => Fuel
  | S fuel' => let! p := is_prime fuel c in if p then Ret c else next_prime_loop fuel' (c + 2)
  end.
(** FindNextPrime, utils.c 737-756. *)
Definition next_prime (fuel : nat) (c : Z) : outcome Z :=
  let! p := is_prime fuel c in if p then Ret c else next_prime_loop fuel ((c + 1) / 2 * 2 + 1).
