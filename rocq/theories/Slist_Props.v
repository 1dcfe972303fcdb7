From Verif Require Import Base BaseFacts List2Facts Hash_Model Arr_Model Arr_Props Sbuf_Props Slist_Model Replace_Props Slist_Proofs.
Require Import ZifyBool ZifyNat.

(** * C37: lists of strings *)
(** [ps] is [x] cut at all its delimiters: [x] is the pieces with one delimiter between each two, and no piece has one. *)
Inductive joined (ds : list Z) : list (list Z) -> list Z -> Prop :=
| joined_one p : joined ds [p] p
| joined_more p c ps x : In c ds -> joined ds ps x -> joined ds (p :: ps) (p ++ c :: x).
Definition splits (ds : list Z) (ps : list (list Z)) (x : list Z) : Prop := joined ds ps x /\ forall p c, In p ps -> In c p -> ~ In c ds.
Theorem C37_pieces ds x : splits ds (pieces ds x) x /\ forall ps, splits ds ps x -> ps = pieces ds x.
Proof.
  split.
  - induction x as [|c x (IH1 & IH2)]; cbn [pieces]; [split; [constructor|intros p d [<-|[]] []]|]. destruct (pieces_nonempty ds x) as (p & ps & E). rewrite E in *. destruct (memz c ds) eqn:Ec.
    + apply memz_in in Ec. split; [apply (joined_more ds [] c); assumption|]. intros q d [<-|Hq]; [intros []|apply IH2, Hq].
    + assert (Hc : ~ In c ds) by (rewrite <- memz_in; congruence). split.
      * inversion IH1; subst; [constructor|]. apply (joined_more ds (c :: p)); assumption.
      * intros q d [<-|Hq]; [|apply IH2; right; exact Hq]. intros [<-|Hd]; [exact Hc|]. apply (IH2 p d); [left; reflexivity|exact Hd].
  - assert (HP : forall p y, (forall c, In c p -> ~ In c ds) -> pieces ds (p ++ y) = match pieces ds y with q :: qs => (p ++ q) :: qs | [] => [p ++ y] end).
    { induction p as [|c p IH]; intros y Hp; cbn [app pieces]; [destruct (pieces_nonempty ds y) as (q & qs & ->); reflexivity|]. assert (Ec : memz c ds = false) by (apply not_true_iff_false; rewrite memz_in; apply Hp; left; reflexivity). rewrite Ec. rewrite IH by (intros d Hd; apply Hp; right; exact Hd). destruct (pieces_nonempty ds y) as (q & qs & ->). reflexivity. }
    intros ps (HJ & HN). induction HJ as [p|p c ps x Hc HJ IH].
    + replace p with (p ++ []) at 2 by apply app_nil_r. rewrite HP by (intros c; apply HN; left; reflexivity). cbn [pieces]. rewrite app_nil_r. reflexivity.
    + rewrite HP by (intros d; apply HN; left; reflexivity). cbn [pieces]. apply memz_in in Hc. rewrite Hc, app_nil_r. rewrite <- IH; [reflexivity|]. intros q d Hq. apply HN. right. exact Hq.
Qed.
Print Assumptions C37_pieces.

(** Any use of a list: additions (with delimiters or without), trimming, lower case, clearing.  The walk over the list then yields: *)
Inductive lop := LAdd (ok : bool) (junk : nat -> Z) (str : list Z) (ds : option (list Z)) | LTrim (g : option (list Z)) | LLower | LClear.
Definition lop_run (fuel : nat) (s : sbuf) (o : lop) : outcome (bool * sbuf) :=
  match o with
  | LAdd ok junk str ds => sl_add ok junk s str ds
  | LTrim g => let! s' := trim_all fuel g s in Ret (true, s')
  | LLower => let! s' := lower_loop fuel s None in Ret (true, s')
  | LClear => Ret (true, [])
  end.
Fixpoint lops (fuel : nat) (s : sbuf) (os : list lop) : outcome (list bool * sbuf) :=
  match os with [] => Ret ([], s) | o :: os' => let! r := lop_run fuel s o in let! q := lops fuel (snd r) os' in Ret (fst r :: fst q, snd q) end.
(** The specification, on plain lists; [done]: the operation succeeded. *)
Definition lop_spec (l : list (list Z)) (o : lop) (done : bool) : list (list Z) :=
  match o with
  | LAdd _ _ str ds => if done then l ++ pieces_opt ds str else l
  | LTrim g => strip_all (match g with None => [9; 32; 13; 10] | Some g => g end) l
  | LLower => map (map (fun c => if (65 <=? c) && (c <=? 90) then c + 32 else c)) l
  | LClear => []
  end.
Fixpoint lops_spec (l : list (list Z)) (os : list lop) (ds : list bool) : list (list Z) :=
  match os, ds with o :: os', d :: ds' => lops_spec (lop_spec l o d) os' ds' | _, _ => l end.
Definition lop_ok (o : lop) : Prop := match o with LAdd _ _ str _ => ~ In 0 str | _ => True end.
Fixpoint can_fail (os : list lop) (ds : list bool) : Prop :=
  match os, ds with o :: os', d :: ds' => (d = false -> match o with LAdd ok _ _ _ => ok = false | _ => False end) /\ can_fail os' ds' | [], [] => True | _, _ => False end.
Lemma lops_ok os : Forall lop_ok os -> forall s ls, lholds s ls -> exists f0, forall fuel, (f0 <= fuel)%nat ->
  exists ds s' ls', lops fuel s os = Ret (ds, s') /\ can_fail os ds /\ lholds s' ls' /\ concat ls' = lops_spec (concat ls) os ds /\ (length (concat ls') < f0)%nat.
Proof.
  induction 1 as [|o os Ho HF IH]; intros s ls H.
  - exists (S (length (concat ls))). intros fuel Hf. exists [], s, ls. cbn [lops can_fail lops_spec]. repeat split; [exact H|lia].
  - assert (HO : exists f1 r s1 ls1, (forall fuel, (f1 <= fuel)%nat -> lop_run fuel s o = Ret (r, s1)) /\ lholds s1 ls1 /\ concat ls1 = lop_spec (concat ls) o r /\ (r = false -> match o with LAdd ok _ _ _ => ok = false | _ => False end)).
    { destruct o as [ok junk str ds|g| |]; cbn [lop_run lop_spec lop_ok] in *.
      - destruct (sl_add_ok ok junk s ls str ds H Ho) as (r & s1 & ls1 & E & H1 & Hr & Ec). exists 0%nat, r, s1, ls1. split; [intros _ _; exact E|]. split; [exact H1|]. split; [rewrite Ec; destruct r; [reflexivity|apply app_nil_r]|]. intros ->. destruct ok; [specialize (Hr eq_refl); discriminate|reflexivity].
      - destruct (trim_all_ok g s ls (S (S (length (concat ls)))) H ltac:(lia)) as (s1 & ls1 & E & H1 & Ec).
        assert (HT : forall fuel, (S (S (length (concat ls))) <= fuel)%nat -> exists s2 ls2, trim_all fuel g s = Ret s2 /\ lholds s2 ls2 /\ concat ls2 = strip_all (match g with None => default_garbage | Some g => g end) (concat ls)) by (intros fuel Hf; apply trim_all_ok; [exact H|lia]).
        assert (HM : forall f2 f1 g s it x, trim_loop f1 g s it = Ret x -> (f1 <= f2)%nat -> trim_loop f2 g s it = Ret x).
        { clear. induction f2 as [|f2 IH]; intros f1 g s it x E Hle; destruct f1 as [|f1]; try discriminate; [lia|]. cbn [trim_loop] in *. destruct it as [(b, o)|]; [|exact E]. destruct (str_at s b o) as [y| | |]; try discriminate. cbn [bind] in *. destruct (npbrk g y) as [h|].
          - destruct (str_at (remove_n s b o h) b o) as [y1| | |]; try discriminate. cbn [bind] in *. destruct (sl_next _ (Some (b, o))) as [n| | |]; try discriminate. cbn [bind] in *. apply (IH f1); [exact E|lia].
          - destruct (sl_remove s b o) as [r| | |]; try discriminate. cbn [bind] in *. apply (IH f1); [exact E|lia]. }
        exists (S (S (length (concat ls)))), true, s1, ls1. split; [intros fuel Hf; unfold trim_all in *; destruct (sl_next s None) as [n| | |]; try discriminate; cbn [bind] in *; rewrite (HM fuel _ _ _ _ _ E Hf); reflexivity|]. split; [exact H1|]. split; [exact Ec|discriminate].
      - destruct (lower_loop_ok (S (length (concat ls))) s ls (concat ls) None [] H ltac:(left; auto) ltac:(lia)) as (s1 & ls1 & E & H1 & Ec).
        assert (HM : forall f2 f1 s it x, lower_loop f1 s it = Ret x -> (f1 <= f2)%nat -> lower_loop f2 s it = Ret x).
        { clear. induction f2 as [|f2 IH]; intros f1 s it x E Hle; destruct f1 as [|f1]; try discriminate; [lia|]. cbn [lower_loop] in *. destruct (sl_next s it) as [n| | |]; try discriminate. cbn [bind] in *. destruct n as [(b, o)|]; [|exact E]. destruct (str_at s b o) as [y| | |]; try discriminate. cbn [bind] in *. destruct (nth_error s b); [|discriminate]. destruct (write _ _ _); [|discriminate]. apply (IH f1); [exact E|lia]. }
        exists (S (length (concat ls))), true, s1, ls1. split; [intros fuel Hf; rewrite (HM fuel _ _ _ _ E Hf); reflexivity|]. split; [exact H1|]. split; [exact Ec|discriminate].
      - exists 0%nat, true, [], []. split; [reflexivity|]. split; [constructor|]. split; [reflexivity|discriminate]. }
    destruct HO as (f1 & r & s1 & ls1 & E & H1 & Ec & Hr). destruct (IH s1 ls1 H1) as (f2 & IH2). exists (f1 + f2)%nat. intros fuel Hf. cbn [lops]. rewrite E by lia. cbn [bind fst snd]. destruct (IH2 fuel ltac:(lia)) as (ds & s' & ls' & -> & HC & H' & Ec' & HL). cbn [bind fst snd].
    exists (r :: ds), s', ls'. cbn [can_fail lops_spec]. split; [reflexivity|]. split; [split; assumption|]. split; [exact H'|]. split; [rewrite Ec', Ec; reflexivity|lia].
Qed.
Theorem C37_list os : Forall lop_ok os -> exists f0, forall fuel, (f0 <= fuel)%nat ->
  exists ds s, lops fuel [] os = Ret (ds, s) /\ can_fail os ds /\ sl_walk fuel s None = Ret (lops_spec [] os ds).
Proof.
  intros HF. destruct (lops_ok os HF [] [] ltac:(constructor)) as (f0 & H). exists f0. intros fuel Hf. destruct (H fuel Hf) as (ds & s & ls & E & HC & HH & Ec & HL). exists ds, s. split; [exact E|]. split; [exact HC|]. rewrite (walk_ok s ls fuel HH) by lia. cbn [concat] in Ec. rewrite Ec. reflexivity.
Qed.
Print Assumptions C37_list.
Example C37_nonvacuous : match lops 30 [] [LAdd true (fun _ => 7) [65;44;32;98;32;44;44;99] (Some [44]); LTrim None; LAdd true (fun _ => 7) [100;44;101] None; LLower] with Ret (_, s) => sl_walk 30 s None | _ => Fuel end = Ret [[97]; [98]; [99]; [100;44;101]].
Proof. vm_compute. reflexivity. Qed.

(** ** A value that is read in several parts *)
Fixpoint appends (js : list ((nat -> Z) * (nat -> Z))) (s : sbuf) (parts : list (list Z)) (ds : option (list Z)) : outcome sbuf :=
  match parts, js with
  | p :: parts', (j1, j2) :: js' => let! r := sl_append_last true j1 j2 s p ds in appends js' (snd r) parts' ds
  | _, _ => Ret s
  end.
Lemma pieces_app ds a b : pieces ds (a ++ b) = removelast (pieces ds a) ++ pieces ds (last (pieces ds a) [] ++ b).
Proof.
  induction a as [|c a IH]; [reflexivity|]. cbn [app pieces]. destruct (pieces_nonempty ds a) as (p & ps & E). rewrite E in *. destruct (memz c ds) eqn:Ec.
  - rewrite IH. cbn [removelast last app]. destruct ps; reflexivity.
  - rewrite IH. destruct ps as [|q ps]; cbn [removelast last app]; [cbn [pieces]; rewrite Ec; destruct (pieces_nonempty ds (p ++ b)) as (u & v & ->); reflexivity|reflexivity].
Qed.
Lemma pieces_opt_app ds a b : pieces_opt ds (a ++ b) = removelast (pieces_opt ds a) ++ pieces_opt ds (last (pieces_opt ds a) [] ++ b).
Proof. destruct ds as [ds|]; [apply pieces_app|reflexivity]. Qed.
Lemma pieces_opt_nonempty ds x : pieces_opt ds x <> [].
Proof. destruct ds as [ds|]; [|discriminate]. destruct (pieces_nonempty ds x) as (p & ps & E). cbn [pieces_opt]. congruence. Qed.
Lemma removelast_grow ds a b : forall p, In p (removelast (pieces_opt ds a)) -> In p (removelast (pieces_opt ds (a ++ b))).
Proof. intros p Hp. rewrite pieces_opt_app, removelast_app by apply pieces_opt_nonempty. apply in_app_iff. left. exact Hp. Qed.
Lemma appends_ok ds parts : forall js s before x ls0 l, length js = length parts -> lholds s (ls0 ++ [l ++ pieces_opt ds x]) -> concat ls0 ++ l = before -> ~ In [] before -> ~ In [] (removelast (pieces_opt ds (x ++ concat parts))) -> Forall nonul parts ->
  exists s' ls, appends js s parts ds = Ret s' /\ lholds s' ls /\ concat ls = before ++ pieces_opt ds (x ++ concat parts).
Proof.
  induction parts as [|p parts IH]; intros js s before x ls0 l HL H Hb Hn1 Hn2 HF; cbn [appends concat] in *.
  - exists s, (ls0 ++ [l ++ pieces_opt ds x]). split; [destruct js; reflexivity|]. split; [exact H|]. rewrite concat_app. cbn [concat]. rewrite !app_nil_r, app_assoc, Hb. reflexivity.
  - destruct js as [|(j1, j2) js]; [discriminate|]. cbn [length appends] in HL |- *. inversion HF as [|? ? Hp HF']; subst.
    set (ps := pieces_opt ds x) in *. assert (Eps : ps = removelast ps ++ [last ps []]) by (apply app_removelast_last, pieces_opt_nonempty).
    assert (HT : tail_ok (ls0 ++ [l ++ ps]) ((concat ls0 ++ l) ++ removelast ps) (last ps [])). { exists ls0, (l ++ removelast ps). split; [rewrite Eps at 1; rewrite app_assoc; reflexivity|]. split; [rewrite app_assoc; reflexivity|]. intros X. assert (Hin : In [] (l ++ removelast ps)) by (rewrite X; left; reflexivity). apply in_app_iff in Hin. destruct Hin as [Hin|Hin]; [apply Hn1, in_app_iff; right; exact Hin|]. apply Hn2. apply removelast_grow. exact Hin. }
    destruct (append_last_ok j1 j2 s _ _ _ p ds H HT Hp) as (s1 & ls1 & l1 & -> & H1 & Hc1). cbn [bind snd].
    destruct (IH js s1 ((concat ls0 ++ l) ++ removelast ps) (last ps [] ++ p) ls1 l1 ltac:(lia) H1 Hc1) as (s' & ls & E & H' & Ec'); [|rewrite <- app_assoc; intros X; apply Hn2; rewrite pieces_opt_app; fold ps; rewrite removelast_app by apply pieces_opt_nonempty; apply in_app_iff; right; exact X|exact HF'|].
    { intros X. apply in_app_iff in X. destruct X as [X|X]; [apply Hn1, X|apply Hn2, removelast_grow, X]. }
    exists s', ls. split; [exact E|]. split; [exact H'|]. rewrite Ec', <- app_assoc. f_equal. rewrite <- app_assoc. symmetry. apply pieces_opt_app.
Qed.
(** Full statement: adding a value in several parts (Add, then AppendLast for the rest) gives the same list as adding it at once.
    Proved if no string of the list is empty, with the possible exception of the last; else it is false (C37_parts_refuted).
    Memory for the additions is there. *)
Theorem C37_parts_partial os junk v ds parts js : Forall lop_ok os -> ~ In 0 v -> Forall (fun p => ~ In 0 p) parts -> length js = length parts ->
  exists f0, forall fuel, (f0 <= fuel)%nat -> exists fs s0 s1, lops fuel [] os = Ret (fs, s0) /\ sl_add true junk s0 v ds = Ret (true, s1) /\
  (~ In [] (lops_spec [] os fs) -> ~ In [] (removelast (pieces_opt ds (v ++ concat parts))) ->
   exists s, appends js s1 parts ds = Ret s /\ sl_walk fuel s None = Ret (lops_spec [] os fs ++ pieces_opt ds (v ++ concat parts))).
Proof.
  intros HF Hv HP HL. destruct (lops_ok os HF [] [] ltac:(constructor)) as (f0 & H). destruct (H f0 (le_n _)) as (fs0 & s00 & ls00 & E00 & _).
  exists (f0 + length (pieces_opt ds (v ++ concat parts)) + 1)%nat. intros fuel Hf. destruct (H fuel ltac:(lia)) as (fs & s0 & ls & E & HC & HH & Ec & Hlt). cbn [concat] in Ec. exists fs, s0.
  unfold sl_add. destruct (sbuf_add_str true junk s0 ls v HH Hv) as [(s' & _ & X & _)|(b & o & s' & l1 & ls' & E1 & H' & HL' & Hb' & -> & Hc & _)]; [discriminate|]. rewrite E1. cbn [bind fst snd]. destruct (divide_ok s' ls' b l1 v ds H' HL' Hb' Hv) as (s2 & -> & H2). cbn [bind fst snd].
  exists s2. split; [exact E|]. split; [reflexivity|]. intros Hn1 Hn2. rewrite <- Ec in *. destruct (appends_ok ds parts js s2 (concat ls) v (firstn b ls') l1 HL H2 Hc Hn1 Hn2 HP) as (s & lsf & Ea & Hf' & Ecf). exists s. split; [exact Ea|].
  rewrite <- Ecf. apply walk_ok; [exact Hf'|]. rewrite Ecf, app_length. lia.
Qed.
Print Assumptions C37_parts_partial.
Example C37_parts_nonvacuous : match sl_add true (fun _ => 7) [] [97;44;98] (Some [44]) with Ret (_, s) => match appends [(fun _ => 7, fun _ => 7); (fun _ => 7, fun _ => 7)] s [[99;44;100]; [101]] (Some [44]) with Ret s' => sl_walk 30 s' None | _ => Fuel end | _ => Fuel end = Ret [[97]; [98;99]; [100;101]].
Proof. vm_compute. reflexivity. Qed.
(** A value that begins with a delimiter: the first part ",abc" and the rest "def" give "def" and remains of old memory, and "abc" is
    lost. *)
Theorem C37_parts_refuted : exists v p ds j s, sl_add true j [] v (Some ds) = Ret (true, s) /\ sl_walk 9 s None = Ret [[]; [97;98;99]] /\
  exists s', (let! r := sl_append_last true j j s p (Some ds) in Ret (snd r)) = Ret s' /\ sl_walk 9 s' None = Ret [[100;101;102]; [7;7;7]].
Proof. exists [44;97;98;99], [100;101;102], [44], (fun i => if Nat.eqb i 7 then 0 else 7). eexists. split; [vm_compute; reflexivity|]. split; [vm_compute; reflexivity|]. eexists. split; [vm_compute; reflexivity|]. vm_compute. reflexivity. Qed.
Print Assumptions C37_parts_refuted.
