(** Vocabulary of C84. *)
From Verif Require Import Base Wtask_Model.

(** The task the scheduler's thread has in its hands. *)
Definition held_of (p : wphase) : list wtask :=
  match p with Waiting (Some t) _ | Woken (Some t) | Running t => [t] | _ => [] end.
(** All tasks there are, and the numbers of the tasks posted in a run. *)
Definition all_of (s : wsched) : list wtask := ws_queue s ++ held_of (ws_phase s) ++ ws_msgs s ++ ws_flight s ++ ws_over s.
Definition wids (l : list wtask) : list Z := map wt_id l.
Definition wposted (e : wevent) : list Z := match e with WPost id _ _ _ _ => [id] | _ => [] end.
Fixpoint wall_posted (es : list wevent) : list Z := match es with [] => [] | e :: es' => wposted e ++ wall_posted es' end.
(** [t'] is [t] with [by_] milliseconds less to wait. *)
Definition wshort (by_ : Z) (t t' : wtask) : Prop :=
  wt_id t' = wt_id t /\ wt_timeout t' = wt_timeout t /\ wt_persistent t' = wt_persistent t /\ wt_async t' = wt_async t /\ wt_due t' = wt_due t /\ wt_left t' = Z.max 0 (wt_left t - by_).
(** How long the scheduler waited for a task before it was interrupted, in all. *)
Definition cut_of (s : wsched) (e : wevent) : Z :=
  match e, ws_phase s with WSignal, Waiting (Some _) start => ws_now s - start | _, _ => 0 end.
Fixpoint wcut (s : wsched) (es : list wevent) : Z :=
  match es with [] => 0 | e :: es' => cut_of s e + match ws_step s e with Some s1 => wcut s1 es' | None => 0 end end.
(** No wait for a task is ended by an event whose message was taken before. *)
Definition fresh (s : wsched) (e : wevent) : Prop :=
  match e, ws_phase s with WTake, Woken (Some _) => ws_msgs s <> [] | _, _ => True end.
Fixpoint wfresh (s : wsched) (es : list wevent) : Prop :=
  match es with [] => True | e :: es' => fresh s e /\ match ws_step s e with Some s1 => wfresh s1 es' | None => True end end.
