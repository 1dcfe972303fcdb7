(** A query stays pending in the UDP upstream module until a reply goes to its client or two seconds have passed. *)
From Verif Require Import Base BaseFacts ListFacts Hash_Model Bst_Model Bst_Spec Bst_Proofs Cht_Model Cache_Model Parser_Spec Iheader_Model Iheader_Spec Ip_Model Mctx_Model Mctx_Spec Mctx_Proofs Udpm_Model Udpm_Spec Udpm_Proofs.
Require Import Permutation ZifyBool ZifyNat.
Set Default Proof Using "Type".

Section P.
Context {A : Type} (ap : bool) (misc : option (ipchunk * bool)) (par : option (list A)).
Context (raw : list Z -> list cnode -> nat -> Z) (ignore parallel : bool) (get : list Z -> option ctrl).
Context (hdr : iheader -> list Z) (arr : list Z -> list Z) (fuel nf : nat).
Notation step := (u_step ap misc par raw ignore parallel get hdr arr fuel nf).
Notation run := (u_run ap misc par raw ignore parallel get hdr arr fuel nf).

(** The event is a reply to the client of [q], with its id. *)
Definition replied_to (q : mctx) (e : @uev A) : Prop :=
  exists r msg code, e = VReplied (to_client hdr q r msg) code /\ matches q r /\ (forall v, get16 msg 0 = Some v -> v = ctx_id q).

Lemma step_keeps s o e s' t : known s t -> uop_ok o -> step s o = Ret (e, s') ->
  exists t', known s' t' /\
    (forall q, In q (vals t) -> (forall n, o = USweep n -> ~ expired n q) -> In q (vals t') \/ replied_to q e) /\
    (forall q, In q (vals t') -> In q (vals t) \/ exists c n ok, o = UQuery c n ok /\ entered ap c n q) /\
    (forall c n ok, o = UQuery c n ok -> exists q, entered ap c n q /\ In q (vals t') /\ forall q2, In q2 (vals t') -> q2 = q \/ In q2 (vals t)).
Proof.
  intros HK Ho H. destruct (known_hash s t HK) as (HT & HR). destruct (step_steps ap misc par raw ignore parallel get hdr arr fuel nf s o e s' HT HR H) as (HR' & mos & HS). clear H.
  destruct HK as ((fl & HB) & HH & _).
  destruct HS as [c now ok c1 to code EW EM|b x E|b x why E|b x r Hr EM|b x r c n tr code Hr EM ES|now l EM].
  - destruct Ho as (Hc & Hl). destruct (with_edns_entered ap fuel c c1 now EW Hl) as (HE & Eh).
    destruct (mc_step_ok _ t fl (MQuery c1 now) HB HH) as (me & b' & t' & fl' & EM' & HB' & HH' & HS & HO); [unfold hash_ok in *; rewrite Eh; exact Hc|].
    assert (b' = u_tab s') as -> by congruence. exists t'. split; [split; [exists fl'; exact HB'|split; [exact HH'|exact HR']]|].
    inversion HS as [? ? ? HP| | |]; subst. split; [|split].
    + intros q Hq _. left. eapply Permutation_in; [symmetry; exact HP|right; exact Hq].
    + intros q Hq. eapply Permutation_in in Hq; [|exact HP]. destruct Hq as [<-|Hq]; [right; eauto 6|left; exact Hq].
    + intros c2 n2 ok2 E2. assert (c2 = c /\ n2 = now) as (-> & ->) by (split; congruence). exists (stamped c1 now). split; [exact HE|].
      split; [eapply Permutation_in; [symmetry; exact HP|left; reflexivity]|]. intros q2 Hq2. eapply Permutation_in in Hq2; [|exact HP]. destruct Hq2 as [<-|Hq2]; auto.
  - exists t. rewrite <- E in HB. split; [split; [exists fl; exact HB|split; [exact HH|exact HR']]|]. split; [auto|]. split; [auto|discriminate].
  - exists t. rewrite <- E in HB. split; [split; [exists fl; exact HB|split; [exact HH|exact HR']]|]. split; [auto|]. split; [auto|discriminate].
  - destruct (mc_step_ok _ t fl (MReply r) HB HH Hr) as (me & b' & t' & fl' & EM' & HB' & HH' & HS & HO). assert (b' = u_tab s' /\ me = EIgnored) as (-> & ->) by (split; congruence).
    exists t'. split; [split; [exists fl'; exact HB'|split; [exact HH'|exact HR']]|]. inversion HS as [| |? ? HP|]; subst. split; [|split; [|discriminate]].
    + intros q Hq _. left. eapply Permutation_in; [symmetry; exact HP|exact Hq].
    + intros q Hq. left. eapply Permutation_in; [exact HP|exact Hq].
  - destruct (mc_step_ok _ t fl (MReply r) HB HH Hr) as (me & b' & t' & fl' & EM' & HB' & HH' & HS & HO). assert (b' = u_tab s' /\ me = EDelivered c) as (-> & ->) by (split; congruence).
    inversion HS as [|? q ? HP HM| |]; subst. destruct (send_back_to_client _ _ _ _ _ _ ES) as (msg & -> & H0 & Hmsg & _).
    exists t'. split; [split; [exists fl'; exact HB'|split; [exact HH'|exact HR']]|]. split; [|split; [|discriminate]].
    + intros q2 Hq _. eapply Permutation_in in Hq; [|exact HP]. destruct Hq as [<-|Hq]; [right|left; exact Hq]. exists r, msg, code. split; [reflexivity|]. split; [exact HM|].
      intros v Hv. apply slice_some in Hmsg. destruct Hmsg as (_ & ->). cbn [skipn] in Hv. apply get16_firstn in Hv. destruct HM as (-> & _). unfold ctx_id. rewrite Hv. reflexivity.
    + intros q2 Hq. left. eapply Permutation_in; [symmetry; exact HP|right; exact Hq].
  - destruct (mc_step_ok _ t fl (MSweep now) HB HH I) as (me & b' & t' & fl' & EM' & HB' & HH' & HS & HO). assert (b' = u_tab s' /\ me = ETimeout l) as (-> & ->) by (split; congruence).
    exists t'. split; [split; [exists fl'; exact HB'|split; [exact HH'|exact HR']]|]. inversion HS as [| | |? ? ? HP HE]; subst. split; [|split; [|discriminate]].
    + intros q Hq HX. left. eapply Permutation_in in Hq; [|exact HP]. apply in_app_or in Hq. destruct Hq as [Hq|Hq]; [|exact Hq]. rewrite Forall_forall in HE. destruct (HX now eq_refl (HE q Hq)).
    + intros q Hq. left. eapply Permutation_in; [symmetry; exact HP|]. apply in_or_app. right. exact Hq.
Qed.
Lemma run_keeps os : forall s t es s', known s t -> Forall uop_ok os -> run s os = Ret (es, s') ->
  exists t', known s' t' /\
    (forall q, In q (vals t) -> (forall n, In (USweep n) os -> ~ expired n q) -> In q (vals t') \/ exists e, In e es /\ replied_to q e) /\
    (forall q, In q (vals t') -> In q (vals t) \/ exists c n ok, In (UQuery c n ok) os /\ entered ap c n q).
Proof.
  induction os as [|o os IH]; intros s t es s' HK HO H; cbn [u_run] in H.
  - assert (s' = s) as -> by congruence. exists t. auto.
  - inversion HO as [|? ? Ho HO']; subst. destruct (step s o) as [[e s1]| | |] eqn:E1; try discriminate. cbn [bind fst snd] in H. destruct (run s1 os) as [[es1 s2]| | |] eqn:E2; try discriminate. cbn [bind fst snd] in H.
    assert (es = e :: es1 /\ s' = s2) as (-> & ->) by (split; congruence). destruct (step_keeps s o e s1 t HK Ho E1) as (t1 & HK1 & H1 & H2 & _).
    destruct (IH s1 t1 es1 s2 HK1 HO' E2) as (t' & HK' & H1' & H2'). exists t'. split; [exact HK'|]. split.
    + intros q Hq HX. destruct (H1 q Hq) as [Hq1|HR]; [intros n ->; apply HX; left; reflexivity| |right; exists e; split; [left; reflexivity|exact HR]].
      destruct (H1' q Hq1) as [Hq'|(e' & He & HR)]; [intros n Hn; apply HX; right; exact Hn|left; exact Hq'|right; exists e'; split; [right; exact He|exact HR]].
    + intros q Hq. destruct (H2' q Hq) as [Hq1|(c & n & ok & Hc & HE)]; [|right; exists c, n, ok; split; [right; exact Hc|exact HE]].
      destruct (H2 q Hq1) as [Hq0|(c & n & ok & -> & HE)]; [left; exact Hq0|right; exists c, n, ok; split; [left; reflexivity|exact HE]].
Qed.
Lemma run_app os1 os2 s es s' : run s (os1 ++ os2) = Ret (es, s') ->
  exists es1 s1 es2, run s os1 = Ret (es1, s1) /\ run s1 os2 = Ret (es2, s') /\ es = es1 ++ es2 /\ length es1 = length os1.
Proof.
  revert s es. induction os1 as [|o os1 IH]; intros s es H; cbn [app] in H.
  - exists [], s, es. auto.
  - cbn [u_run] in H |- *. destruct (step s o) as [[e s1]| | |] eqn:E1; try discriminate. cbn [bind fst snd] in *. destruct (run s1 (os1 ++ os2)) as [[es1 s2]| | |] eqn:E2; try discriminate. cbn [bind fst snd] in H.
    assert (es = e :: es1 /\ s' = s2) as (-> & ->) by (split; congruence). destruct (IH s1 es1 E2) as (ea & sa & eb & -> & H2 & -> & HL). exists (e :: ea), sa, eb. cbn [bind fst snd length app]. auto.
Qed.
End P.

Lemma get16_front m n : (2 <= n)%nat -> get16 (firstn n m) 0 = get16 m 0.
Proof.
  intros Hn. unfold get16. f_equal. destruct n as [|[|n]]; try lia. destruct m as [|a [|b m]]; reflexivity.
Qed.
(** The id of a query that is pending. *)
Lemma entered_id ap c now q : entered ap c now q -> ctx_id q = ctx_id c /\ h_hash (c_h q) = h_hash (c_h c) /\ h_time (c_h q) = now /\ h_back (c_h q) = h_back (c_h c) /\ h_sock (c_h q) = h_sock (c_h c) /\
  h_rethdr (c_h q) = h_rethdr (c_h c) /\ h_domain (c_h q) = h_domain (c_h c).
Proof.
  intros (_ & edns & len & m & -> & E). cbn. split; [|auto 8]. unfold ctx_id. cbn [c_entity]. rewrite <- (get16_front m 4), E, get16_front by lia. reflexivity.
Qed.
