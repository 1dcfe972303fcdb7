(** C46, C56, C57, C58: messages on TCP connections. *)
From Verif Require Import Base BaseFacts Hash_Model Tcp_Model.
Require Import ZifyBool ZifyNat.

(** * Specification *)

(** A message as it is on a TCP connection: its length (two bytes), then itself. *)
Definition framed (msg : list Z) : list Z := be16 (Z.of_nat (length msg)) ++ msg.
(** The data that arrives before the connection ends or fails. *)
Fixpoint stream (c : net) : list Z :=
  match c with
  | Seg l :: c' => l ++ stream c'
  | Again :: c' => stream c'
  | _ => []
  end.
(** The segments that arrive before that. *)
Fixpoint segs (c : net) : list (list Z) :=
  match c with
  | Seg l :: c' => l :: segs c'
  | Again :: c' => segs c'
  | _ => []
  end.
(** Segments are not empty, and consist of bytes; Linux's error numbers are below 4096. *)
Definition net_ok (c : net) : Prop :=
  forall e, In e c -> match e with Seg l => l <> [] /\ Forall is_byte l | Failed p => Z.pos p < 4096 | _ => True end.

(** * Lemmas *)
Lemma net_ok_tail e c : net_ok (e :: c) -> net_ok c.
Proof. intros H e' A. apply H. right. exact A. Qed.
Lemma rest_of_stream l n c : stream (rest_of l n c) = skipn n l ++ stream c.
Proof. unfold rest_of. destruct (skipn n l); reflexivity. Qed.
Lemma rest_of_ok l n c : net_ok (Seg l :: c) -> net_ok (rest_of l n c).
Proof.
  intros H. unfold rest_of. destruct (skipn n l) as [|x l'] eqn:E; [apply net_ok_tail with (Seg l); exact H|]. intros e [<-|A]; [|apply H; right; exact A].
  split; [discriminate|]. rewrite <- E. apply Forall_forall. intros y Hy. destruct (H (Seg l) (or_introl eq_refl)) as [_ HB]. rewrite Forall_forall in HB. apply HB.
  rewrite <- (firstn_skipn n l). apply in_or_app. right. exact Hy.
Qed.
Lemma recv_ok c n : net_ok c -> exists st d c', recv_wrapper c n = (st, d, c') /\ net_ok c' /\ (length d <= n)%nat /\ Forall is_byte d /\
  ((-4096 < st < 0 /\ d = [] /\ stream c = []) \/ (st = Z.of_nat (length d) /\ stream c = d ++ stream c' /\ (d = [] -> n = 0%nat \/ stream c = []))).
Proof.
  induction c as [|e c IH]; intros H; cbn [recv_wrapper].
  - exists (-11), [], []. split; [reflexivity|]. split; [exact H|]. split; [cbn; lia|]. split; [constructor|]. left. split; [lia|]. split; reflexivity.
  - destruct e as [l| | |p].
    + eexists _, _, _. split; [reflexivity|]. split; [apply rest_of_ok; exact H|]. split; [rewrite firstn_length; lia|].
      destruct (H (Seg l) (or_introl eq_refl)) as [HN HB]. split.
      { rewrite <- (firstn_skipn n l) in HB. apply Forall_app in HB. tauto. }
      right. split; [reflexivity|]. split; [cbn [stream]; rewrite rest_of_stream, app_assoc, firstn_skipn; reflexivity|].
      intros E. left. destruct n; [reflexivity|]. destruct l; [congruence|discriminate].
    + cbn [stream]. apply (IH (net_ok_tail _ _ H)).
    + exists 0, [], (Closed :: c). split; [reflexivity|]. split; [exact H|]. split; [cbn; lia|]. split; [constructor|]. right. split; [reflexivity|]. split; [reflexivity|]. intros _. right. reflexivity.
    + exists (Z.neg p), [], c. split; [reflexivity|]. split; [apply (net_ok_tail _ _ H)|]. split; [cbn; lia|]. split; [constructor|]. left. split; [|split; reflexivity].
      pose proof (H (Failed p) (or_introl eq_refl)) as B. cbn in B. lia.
Qed.
Lemma write_nil {A} (m : list A) i : (i <= length m)%nat -> write m i [] = Some m.
Proof. intros H. apply write_some. cbn [length app]. rewrite Nat.add_0_r. split; [exact H|]. symmetry. apply firstn_skipn. Qed.
Lemma write_write {A} (m m1 m2 : list A) i a b : write m i a = Some m1 -> write m1 (i + length a) b = Some m2 -> write m i (a ++ b) = Some m2.
Proof.
  intros H1 H2. apply write_some in H1. destruct H1 as [L1 ->]. apply write_some in H2. destruct H2 as [L2 ->]. apply write_some.
  assert (LF : length (firstn i m) = i) by (rewrite firstn_length; lia).
  rewrite !app_length, LF, skipn_length in L2. split; [rewrite app_length; lia|].
  replace (i + length a)%nat with (length (firstn i m ++ a)) at 1 by (rewrite app_length; lia).
  rewrite !app_assoc. f_equal.
  - f_equal. rewrite firstn_app, firstn_all, Nat.sub_diag. cbn [firstn]. apply app_nil_r.
  - rewrite <- !app_assoc. rewrite app_length.
    rewrite skipn_app, LF. rewrite skipn_all2 by lia. cbn [app]. rewrite skipn_app. rewrite skipn_all2 by lia. cbn [app]. rewrite skipn_skipn'. f_equal. lia.
Qed.
Lemma u16_small v : 0 <= v < 65536 -> u16 v = v.
Proof. intros H. unfold u16. apply Z.mod_small. exact H. Qed.
Lemma app_split {A} (a b c d : list A) : a ++ b = c ++ d -> (length a <= length c)%nat -> exists e, c = a ++ e /\ b = e ++ d.
Proof.
  revert c. induction a as [|x a IH]; intros c H L; cbn [app length] in *.
  - exists c. auto.
  - destruct c as [|y c]; cbn [length app] in *; [lia|]. injection H as <- H. destruct (IH c H ltac:(lia)) as (e & -> & ->). exists e. auto.
Qed.

(** What the loop does: it ends, stays in the buffer, and if it reports the whole message then that is what arrived. *)
Lemma loop_ok : forall fuel c buf pos len, net_ok c -> 0 <= pos -> 0 <= len -> pos + len <= Z.of_nat (length buf) -> Z.of_nat (length buf) <= 4096 -> (Z.to_nat len < fuel)%nat ->
  exists buf' pos' len' st c', reply_loop fuel c buf pos len = Ret (buf', pos', len', st, c') /\ net_ok c' /\
    (len' = 0 -> exists msg, Z.of_nat (length msg) = len /\ stream c = msg ++ stream c' /\ write buf (Z.to_nat pos) msg = Some buf' /\ 0 <= st <= len /\ (0 < len -> 0 < st)) /\
    (forall msg rest, Z.of_nat (length msg) = len -> stream c = msg ++ rest -> msg <> [] -> len' = 0).
Proof.
  induction fuel as [|fuel IH]; intros c buf pos len HC Hp Hl HB HL HF; [lia|]. cbn [reply_loop].
  destruct (recv_ok c (Z.to_nat len) HC) as (st & d & c1 & -> & HC1 & Ld & Bd & HD).
  destruct (write_ok buf (Z.to_nat pos) d) as (buf1 & HW); [lia|]. rewrite HW. cbv zeta.
  destruct HD as [(Hst & -> & HE)|(Hst & HS & HE)].
  - destruct (Z.ltb_spec 0 st); [lia|]. cbn [andb]. eexists _, _, _, _, _. split; [reflexivity|]. split; [exact HC1|]. rewrite u16_small by lia. split; [intros; lia|].
    intros msg rest HM HS HN. exfalso. rewrite HE in HS. destruct msg; [congruence|discriminate].
  - destruct (Z.ltb_spec 0 st) as [P|P]; cbn [andb].
    + rewrite u16_small by lia. destruct (Z.ltb_spec 0 (len - st)) as [Q|Q].
      * pose proof (write_length _ _ _ _ HW) as LW. destruct (IH c1 buf1 (pos + st) (len - st) HC1 ltac:(lia) ltac:(lia) ltac:(lia) ltac:(lia) ltac:(lia)) as (buf' & pos' & len' & st' & c' & -> & HC' & A & B).
        eexists _, _, _, _, _. split; [reflexivity|]. split; [exact HC'|]. split.
        -- intros E. destruct (A E) as (msg & LM & SM & WM & R1 & R2). exists (d ++ msg). split; [rewrite app_length; lia|]. split; [rewrite HS, SM, app_assoc; reflexivity|].
           split; [|lia]. apply write_write with buf1; [exact HW|]. replace (Z.to_nat pos + length d)%nat with (Z.to_nat (pos + st)) by lia. exact WM.
        -- intros msg rest LM SM NM. rewrite HS in SM. destruct (app_split _ _ _ _ SM ltac:(lia)) as (e & -> & SE). rewrite app_length in LM. apply (B e rest); [lia|exact SE|]. intros ->. cbn in LM. lia.
      * eexists _, _, _, _, _. split; [reflexivity|]. split; [exact HC1|]. split.
        -- intros E. exists d. split; [lia|]. split; [exact HS|]. split; [exact HW|]. lia.
        -- intros. lia.
    + assert (d = []) as -> by (destruct d; [reflexivity|cbn in Hst; lia]). eexists _, _, _, _, _. split; [reflexivity|]. split; [exact HC1|]. rewrite u16_small by lia. split.
      -- intros E. exists []. cbn [length] in *. split; [lia|]. split; [exact HS|]. split; [exact HW|]. lia.
      -- intros msg rest LM SM NM. exfalso. destruct (HE eq_refl) as [N|N]; [destruct msg; [congruence|cbn in LM; lia]|]. rewrite N in SM. destruct msg; [congruence|discriminate].
Qed.
Lemma from16_be16 v : 0 <= v < 65536 -> from16 (be16 v) = v.
Proof. intros H. unfold from16, be16. rewrite (Z.mod_small (v / 256)); [|split; [apply Z.div_pos; lia|apply Z.div_lt_upper_bound; lia]]. rewrite Z.mul_comm. symmetry. apply Z.div_mod. lia. Qed.
Lemma be16_from16 d : length d = 2%nat -> Forall is_byte d -> be16 (from16 d) = d /\ 0 <= from16 d < 65536.
Proof.
  intros L B. destruct d as [|a [|b [|]]]; try discriminate. inversion_clear B as [|? ? Ba B']. inversion_clear B' as [|? ? Bb _]. unfold is_byte in *. cbn [from16]. unfold be16. split; [|lia].
  rewrite Z.div_add_l by lia. rewrite (Z.div_small b) by lia. rewrite Z.add_0_r, (Z.mod_small a) by lia. rewrite Z.add_comm, Z.mod_add, Z.mod_small by lia. reflexivity.
Qed.
Lemma be16_length v : length (be16 v) = 2%nat.
Proof. reflexivity. Qed.
Lemma recv_first c n : forall p more, segs c = p :: more -> exists c1, recv_wrapper c n = (Z.of_nat (length (firstn n p)), firstn n p, c1) /\
  segs c1 = match skipn n p with [] => more | q => q :: more end /\ stream c1 = skipn n p ++ concat more.
Proof.
  assert (SS : forall c, stream c = concat (segs c)) by (clear; induction c as [|[l| | |q] c IH]; cbn [stream segs concat]; congruence).
  induction c as [|e c IH]; intros p more H; cbn [segs recv_wrapper] in *; [discriminate|]. destruct e as [l| | |q]; try discriminate.
  - injection H as -> <-. eexists. split; [reflexivity|]. split; [unfold rest_of; destruct (skipn n p); reflexivity|]. rewrite rest_of_stream, SS. reflexivity.
  - apply IH. exact H.
Qed.
Lemma write_front (buf msg buf' : list Z) : write buf 0 msg = Some buf' -> buf' = msg ++ skipn (length msg) buf.
Proof. intros H. apply write_some in H. destruct H as [_ ->]. reflexivity. Qed.

(** The part of [len] bytes that comes in the last of the segments they need. *)
Fixpoint last_part (l : list (list Z)) (len : Z) : Z :=
  match l with
  | [] => len
  | s :: l' => if Z.of_nat (length s) <? len then last_part l' (len - Z.of_nat (length s)) else len
  end.
Lemma loop_last : forall fuel c buf pos len buf' pos' st c', net_ok c -> 0 < len <= 4096 ->
  reply_loop fuel c buf pos len = Ret (buf', pos', 0, st, c') -> st = last_part (segs c) len.
Proof.
  induction fuel as [|fuel IH]; intros c buf pos len buf' pos' st c' HC HL H; cbn [reply_loop] in H; [discriminate|].
  destruct (recv_ok c (Z.to_nat len) HC) as (st1 & d & c1 & ER & HC1 & Ld & _ & HD). rewrite ER in H. destruct (write buf (Z.to_nat pos) d) as [buf1|]; [|discriminate]. cbv zeta in H.
  assert (HE : segs c = [] \/ exists p more, segs c = p :: more) by (destruct (segs c); eauto). destruct HE as [HE|(p & more & HE)].
  - assert (SE : stream c = []) by (clear - HE; induction c as [|[l| | |q] c IH]; cbn [stream segs] in *; try discriminate; auto).
    exfalso. destruct HD as [(Hst & -> & _)|(Hst & HS & _)].
    + destruct (Z.ltb_spec 0 st1); [lia|]. cbn [andb] in H. injection H as _ _ H _ _. rewrite u16_small in H by lia. lia.
    + rewrite SE in HS. destruct d; [|discriminate]. cbn in Hst. subst st1. cbn [Z.ltb andb] in H. injection H as _ _ H _ _. rewrite u16_small in H by lia. lia.
  - destruct (recv_first c (Z.to_nat len) p more HE) as (c1' & ER' & SG & _). rewrite ER in ER'. injection ER' as -> -> <-. rewrite HE. cbn [last_part].
    assert (PN : p <> []). { destruct (recv_ok c 1 HC) as (? & ? & ? & E1 & _). clear - HC HE. induction c as [|[l| | |q] c IH]; cbn [segs] in HE; try discriminate.
      - injection HE as -> _. apply (HC (Seg p) (or_introl eq_refl)).
      - apply IH; [|exact HE]. eapply net_ok_tail; eauto. }
    assert (LP : (0 < length p)%nat) by (destruct p; [congruence|cbn; lia]).
    rewrite firstn_length in *. destruct (Z.ltb_spec (Z.of_nat (length p)) len) as [Q|Q].
    + rewrite Nat.min_r in H by lia. rewrite u16_small in H by lia. destruct (Z.ltb_spec 0 (Z.of_nat (length p))); [|lia]. destruct (Z.ltb_spec 0 (len - Z.of_nat (length p))); [|lia]. cbn [andb] in H.
      apply IH in H; [|exact HC1|lia]. rewrite SG in H. rewrite skipn_all2 in H by lia. exact H.
    + rewrite Nat.min_l in H by lia. rewrite Z2Nat.id in H by lia. replace (len - len) with 0 in H by lia. change (u16 0) with 0 in H. rewrite andb_false_r in H. injection H as _ _ <- _. reflexivity.
Qed.
Lemma loop_length : forall fuel c buf pos len buf' pos' len' st c', reply_loop fuel c buf pos len = Ret (buf', pos', len', st, c') -> length buf' = length buf.
Proof.
  induction fuel as [|fuel IH]; intros c buf pos len buf' pos' len' st c' H; cbn [reply_loop] in H; [discriminate|].
  destruct (recv_wrapper c (Z.to_nat len)) as [[st1 d] c1]. destruct (write buf (Z.to_nat pos) d) as [buf1|] eqn:W; [|discriminate]. cbv zeta in H. apply write_length in W.
  destruct ((0 <? st1) && (0 <? u16 (len - st1))); [apply IH in H; congruence|]. injection H as <- _ _ _ _. exact W.
Qed.

(** * C46 *)

(** Full statement: the reply passed on is the complete announced message, however it is segmented.

    In every case the reading ends, stays in the buffer, and a reply is only passed on when all announced bytes have arrived:
    they then are in the buffer, and the connection is left behind them. *)
Theorem C46_sound fuel c buf : net_ok c -> (length buf <= 4096)%nat -> (length buf < fuel)%nat ->
  exists r, tcp_reply fuel c buf = Ret r /\
    match r with
    | Discard _ buf' => length buf' = length buf
    | Reply buf' n c' => exists msg, stream c = framed msg ++ stream c' /\ (length msg <= length buf)%nat /\ buf' = msg ++ skipn (length msg) buf /\
        0 <= n <= Z.of_nat (length msg) /\ net_ok c'
    end.
Proof.
  intros HC HL HF. unfold tcp_reply. destruct (recv_ok c 2 HC) as (st & d & c1 & -> & HC1 & Ld & Bd & HD).
  destruct (Z.eqb_spec st 2) as [->|N]; cbn [negb]; [|eexists; split; [reflexivity|reflexivity]].
  destruct HD as [(Hst & _)|(Hst & HS & _)]; [lia|]. destruct (be16_from16 d ltac:(lia) Bd) as [E16 R16].
  destruct (Z.ltb_spec (Z.of_nat (length buf)) (from16 d)) as [Q|Q]; [eexists; split; [reflexivity|reflexivity]|].
  pose proof (loop_length fuel c1 buf 0 (from16 d)) as HLen.
  destruct (loop_ok fuel c1 buf 0 (from16 d) HC1 ltac:(lia) ltac:(lia) ltac:(lia) ltac:(lia) ltac:(lia)) as (buf' & pos' & len' & st' & c2 & EL & HC2 & A & _). rewrite EL. cbn [bind].
  destruct (Z.eqb_spec len' 0) as [E|E]; cbn [negb]; [|eexists; split; [reflexivity|eapply HLen; exact EL]].
  destruct (A E) as (msg & LM & SM & WM & RM & _). eexists. split; [reflexivity|]. exists msg. unfold framed. rewrite LM, E16. split; [rewrite HS, SM, app_assoc; reflexivity|].
  split; [lia|]. split; [apply write_front; exact WM|]. split; [exact RM|exact HC2].
Qed.
Print Assumptions C46_sound.

(** A message that fits in the buffer and whose length prefix comes in one piece is put together whatever the segments; but
    the length passed on is that of the part in the last segment.  Hence it is delivered whole if it is in one segment. *)
Theorem C46_whole_partial fuel c buf msg rest p more : net_ok c -> (length buf <= 4096)%nat -> (length buf < fuel)%nat ->
  segs c = p :: more -> (2 <= length p)%nat -> stream c = framed msg ++ rest -> msg <> [] -> (length msg <= length buf)%nat ->
  exists n c', tcp_reply fuel c buf = Ret (Reply (msg ++ skipn (length msg) buf) n c') /\ stream c' = rest /\
    n = last_part (match skipn 2 p with [] => more | q => q :: more end) (Z.of_nat (length msg)) /\
    (forall x more', segs c = (framed msg ++ x) :: more' \/ segs c = be16 (Z.of_nat (length msg)) :: (msg ++ x) :: more' -> n = Z.of_nat (length msg)).
Proof.
  intros HC HL HF HP LP HS NM LM. unfold tcp_reply. destruct (recv_first c 2 p more HP) as (c1 & ER & SG & ST).
  destruct (recv_ok c 2 HC) as (st & d & c1' & ER' & HC1 & Ld & Bd & HD). rewrite ER in ER'. apply pair_equal_spec in ER'. destruct ER' as [ER' <-]. apply pair_equal_spec in ER'. destruct ER' as [<- <-]. rewrite ER. rewrite firstn_length, Nat.min_l by lia. cbn [Z.of_nat Pos.of_succ_nat Pos.succ Z.eqb Pos.eqb negb].
  destruct HD as [(Hst & _)|(_ & HS1 & _)]; [exfalso; lia|]. rewrite HS in HS1. unfold framed in HS1. rewrite <- app_assoc in HS1.
  apply app_split in HS1; [|rewrite be16_length, firstn_length; lia]. destruct HS1 as (e & E1 & E2).
  assert (e = []) as ->. { apply (f_equal (@length Z)) in E1. rewrite app_length, be16_length, firstn_length in E1. destruct e; [reflexivity|cbn [length] in E1; lia]. }
  rewrite app_nil_r in E1. cbn [app] in E2. rewrite E1 in *. rewrite from16_be16 by lia.
  destruct (Z.ltb_spec (Z.of_nat (length buf)) (Z.of_nat (length msg))); [lia|].
  destruct (loop_ok fuel c1 buf 0 (Z.of_nat (length msg)) HC1 ltac:(lia) ltac:(lia) ltac:(lia) ltac:(lia) ltac:(lia)) as (buf' & pos' & len' & st' & c2 & EL & HC2 & A & B).
  assert (len' = 0) as -> by (apply (B msg rest); auto). rewrite EL. cbn [bind Z.eqb negb].
  destruct (A eq_refl) as (msg' & LM' & SM & WM & RM & _). rewrite <- E2 in SM. symmetry in SM. destruct (app_split _ _ _ _ SM ltac:(lia)) as (e & -> & ES).
  assert (e = []) as -> by (rewrite app_length in LM'; destruct e; [reflexivity|cbn in LM'; lia]). rewrite app_nil_r in *. cbn [app] in ES.
  assert (LP0 : (0 < length msg')%nat) by (destruct msg'; [congruence|cbn; lia]).
  eexists st', c2. split; [rewrite (write_front _ _ _ WM); reflexivity|]. split; [exact ES|].
  assert (EST : st' = last_part (segs c1) (Z.of_nat (length msg'))) by (eapply loop_last; [exact HC1| |exact EL]; lia).
  rewrite <- SG. split; [exact EST|]. intros x more' HX. rewrite EST, SG. rewrite HP in HX. destruct HX as [HX|HX].
  - assert (PX : p = framed msg' ++ x) by congruence. rewrite PX. unfold framed. rewrite <- app_assoc. change (skipn 2 (be16 (Z.of_nat (length msg')) ++ msg' ++ x)) with (msg' ++ x). destruct msg' as [|a msg']; [congruence|]. cbn [app last_part].
    destruct (Z.ltb_spec (Z.of_nat (length (a :: msg' ++ x))) (Z.of_nat (length (a :: msg')))) as [Q|Q]; [|reflexivity]. cbn [length] in Q. rewrite app_length in Q. lia.
  - assert (PX : p = be16 (Z.of_nat (length msg'))) by congruence. assert (PM : more = (msg' ++ x) :: more') by congruence. rewrite PX, PM. change (skipn 2 (be16 (Z.of_nat (length msg')))) with (@nil Z). cbn [last_part]. destruct (Z.ltb_spec (Z.of_nat (length (msg' ++ x))) (Z.of_nat (length msg'))) as [Q|Q]; [|reflexivity]. rewrite app_length in Q. lia.
Qed.
Print Assumptions C46_whole_partial.

(** Every message of two bytes or more can be segmented so that only a part of it is passed on. *)
Lemma net_ok_list ls : (forall l, In l ls -> l <> [] /\ Forall is_byte l) -> net_ok (map Seg ls).
Proof. intros H e A. apply in_map_iff in A. destruct A as (l & <- & A). apply H. exact A. Qed.
Lemma be16_bytes v : Forall is_byte (be16 v).
Proof. unfold be16, is_byte. repeat constructor; apply Z.mod_pos_bound; lia. Qed.
Theorem C46_whole_refuted fuel buf msg : (length buf <= 4096)%nat -> (length buf < fuel)%nat -> Forall is_byte msg -> (2 <= length msg <= length buf)%nat ->
  exists c buf' n c', net_ok c /\ stream c = framed msg /\ tcp_reply fuel c buf = Ret (Reply buf' n c') /\ firstn (Z.to_nat n) buf' <> msg.
Proof.
  intros HL HF HB HM. destruct msg as [|a [|b m]]; cbn [length] in HM; try lia. set (msg := a :: b :: m) in *.
  set (c := map Seg [be16 (Z.of_nat (length msg)) ++ [a]; b :: m]).
  assert (HC : net_ok c).
  { apply net_ok_list. inversion_clear HB as [|? ? Ba HB']. intros l [<-|[<-|[]]]; (split; [discriminate|]); [|exact HB'].
    apply Forall_app. split; [apply be16_bytes|]. constructor; [exact Ba|constructor]. }
  assert (HS : stream c = framed msg) by (unfold c, framed; cbn [map stream]; rewrite app_nil_r, <- app_assoc; reflexivity).
  destruct (C46_whole_partial fuel c buf msg [] (be16 (Z.of_nat (length msg)) ++ [a]) [b :: m] HC HL HF) as (n & c' & E & _ & EN & _); [reflexivity|cbn; lia|rewrite app_nil_r; exact HS|discriminate|cbn [length msg] in *; lia|].
  exists c, (msg ++ skipn (length msg) buf), n, c'. split; [exact HC|]. split; [exact HS|]. split; [exact E|].
  change (skipn 2 (be16 (Z.of_nat (length msg)) ++ [a])) with [a] in EN. cbn [last_part] in EN. change (length [a]) with 1%nat in EN.
  assert (L : Z.of_nat (length msg) = 2 + Z.of_nat (length m)) by (unfold msg; cbn [length]; lia).
  destruct (Z.ltb_spec (Z.of_nat 1) (Z.of_nat (length msg))) as [_|Q]; [|lia].
  destruct (Z.ltb_spec (Z.of_nat (length (b :: m))) (Z.of_nat (length msg) - Z.of_nat 1)) as [Q|_]; [cbn [length] in Q; lia|].
  intros X. apply (f_equal (@length Z)) in X. rewrite firstn_length in X. rewrite app_length in X. lia.
Qed.
Print Assumptions C46_whole_refuted.

(** Every message is lost, and the connection closed, if its length prefix comes in two parts. *)
Theorem C46_prefix_refuted fuel buf msg : Forall is_byte msg ->
  exists c, net_ok c /\ stream c = framed msg /\ tcp_reply fuel c buf = Ret (Discard false buf).
Proof.
  intros HB. destruct (be16 (Z.of_nat (length msg))) as [|h [|l [|]]] eqn:E; try discriminate. exists (map Seg [[h]; l :: msg]).
  assert (B := be16_bytes (Z.of_nat (length msg))). rewrite E in B. inversion_clear B as [|? ? B1 B']. inversion_clear B' as [|? ? B2 _].
  split; [|split].
  - apply net_ok_list. intros x [<-|[<-|[]]]; (split; [discriminate|]); constructor; auto.
  - unfold framed. rewrite E. cbn [map stream app]. rewrite app_nil_r. reflexivity.
  - reflexivity.
Qed.
Print Assumptions C46_prefix_refuted.

(** A reply of four bytes in one segment, with the beginning of the next one. *)
Example C46_nonvacuous :
  let c := [Again; Seg [0; 4; 10; 20; 30; 40; 0]; Seg [1; 7]] in
  net_ok c /\ segs c = [[0; 4; 10; 20; 30; 40; 0]; [1; 7]] /\ stream c = framed [10; 20; 30; 40] ++ framed [7] /\
  tcp_reply 7 c [0; 0; 0; 0; 0; 0] = Ret (Reply [10; 20; 30; 40; 0; 0] 4 [Seg [0]; Seg [1; 7]]).
Proof.
  cbv zeta. split; [|split; [reflexivity|split; reflexivity]]. intros e [<-|[<-|[<-|[]]]]; [exact I|..]; (split; [discriminate|]); repeat (apply Forall_cons; [unfold is_byte; lia|]); apply Forall_nil.
Qed.

(** * C56 *)

(** Full statement: a message sent over TCP appears on the connection whole, behind its length, once.  If the system always
    takes all bytes or none, then a query reported as sent has gone out exactly so, and otherwise nothing has. *)
Theorem C56_send_partial (l : list attempt) msg : (forall a, In a l -> a_accepted a = 0%nat \/ (length (framed msg) <= a_accepted a)%nat) ->
  exists ok : bool, tcp_send l msg = (ok, if ok then framed msg else []) /\
    (ok = true <-> exists l1 a l2, l = l1 ++ a :: l2 /\ (0 < a_accepted a)%nat /\ forall b, In b l1 -> a_accepted b = 0%nat /\ a_more b = true).
Proof.
  unfold tcp_send. fold (framed msg). assert (LF : (2 <= length (framed msg))%nat) by (unfold framed; rewrite app_length, be16_length; lia). generalize dependent (framed msg). intros m LF.
  induction l as [|a l IH]; intros H; cbn [send_wrapper].
  - exists false. split; [reflexivity|]. split; [discriminate|]. intros ([|? ?] & ? & ? & E & _); discriminate.
  - rewrite firstn_length. destruct (H a (or_introl eq_refl)) as [E|E].
    + rewrite E. rewrite Nat.min_0_l. destruct (Nat.eqb_spec 0 (length m)); [lia|]. cbn [firstn]. destruct (a_more a) eqn:EM.
      * destruct (IH (fun b A => H b (or_intror A))) as (ok & -> & HI). exists ok. split; [reflexivity|]. rewrite HI. split.
        -- intros (l1 & b & l2 & -> & Hb & H1). exists (a :: l1), b, l2. split; [reflexivity|]. split; [exact Hb|]. intros x [<-|A]; [auto|apply H1; exact A].
        -- intros ([|y l1] & b & l2 & EL & Hb & H1); cbn [app] in EL; injection EL as -> EL; [lia|]. exists l1, b, l2. split; [exact EL|]. split; [exact Hb|]. intros x A. apply H1. right. exact A.
      * exists false. split; [reflexivity|]. split; [discriminate|]. intros ([|y l1] & b & l2 & EL & Hb & H1); cbn [app] in EL; injection EL as -> EL; [lia|].
        destruct (H1 y (or_introl eq_refl)). congruence.
    + rewrite Nat.min_r by lia. rewrite Nat.eqb_refl. exists true. split; [rewrite firstn_all2 by lia; reflexivity|]. split; [|reflexivity]. intros _. exists [], a, l. split; [reflexivity|]. split; [lia|]. intros b [].
Qed.
Print Assumptions C56_send_partial.

(** After a partial send the message is sent again from its start: what the server reads is not the message. *)
Theorem C56_send_refuted msg : exists l h, framed msg = h :: tl (framed msg) /\ tcp_send l msg = (true, h :: framed msg).
Proof.
  exists [mk_attempt 1 true; mk_attempt (length (framed msg)) true], (hd 0 (framed msg)). split; [reflexivity|]. unfold tcp_send. fold (framed msg).
  assert (LF : (2 <= length (framed msg))%nat) by (unfold framed; rewrite app_length, be16_length; lia). destruct (framed msg) as [|h m]; [cbn in LF; lia|].
  cbn [send_wrapper a_accepted a_more]. change (firstn 1 (h :: m)) with [h]. change (length [h]) with 1%nat. destruct (Nat.eqb_spec 1 (length (h :: m))) as [E|_]; [cbn [length] in *; lia|].
  rewrite (firstn_all2 (h :: m)) by lia. rewrite Nat.eqb_refl. reflexivity.
Qed.
Print Assumptions C56_send_refuted.

(** An answer reported as sent to a TCP client has gone out whole, behind its length, once. *)
Theorem C56_back k msg : exists ok out, tcp_send_back k msg = (ok, out) /\ (ok = true <-> out = framed msg) /\ exists rest, framed msg = out ++ rest.
Proof.
  unfold tcp_send_back. fold (framed msg). cbv zeta. eexists _, _. split; [reflexivity|]. split.
  - rewrite Nat.eqb_eq. split; intros H; [|rewrite H; reflexivity]. rewrite firstn_length in H. apply firstn_all2. lia.
  - exists (skipn k (framed msg)). symmetry. apply firstn_skipn.
Qed.
Print Assumptions C56_back.

(** But if only a part was taken the rest is never sent, though the connection is kept. *)
Theorem C56_back_refuted msg : msg <> [] -> exists k out, tcp_send_back k msg = (false, out) /\ out <> [] /\ out <> framed msg.
Proof.
  intros NM. exists 2%nat, (be16 (Z.of_nat (length msg))). unfold tcp_send_back. cbv zeta. rewrite firstn_app. change (firstn 2 (be16 (Z.of_nat (length msg)))) with (be16 (Z.of_nat (length msg))).
  rewrite be16_length. cbn [Nat.sub firstn]. rewrite app_nil_r, app_length, be16_length. assert (0 < length msg)%nat by (destruct msg; [congruence|cbn; lia]).
  destruct (Nat.eqb_spec 2 (2 + length msg)); [lia|]. split; [reflexivity|]. split; [discriminate|]. unfold framed. intros E. apply (f_equal (@length Z)) in E. rewrite app_length, be16_length in E. lia.
Qed.
Print Assumptions C56_back_refuted.

Example C56_nonvacuous :
  (forall a, In a [mk_attempt 0 true; mk_attempt 100 false] -> a_accepted a = 0%nat \/ (length (framed [7%Z; 8%Z; 9%Z]) <= a_accepted a)%nat) /\
  tcp_send [mk_attempt 0 true; mk_attempt 100 false] [7; 8; 9] = (true, [0; 3; 7; 8; 9]).
Proof. split; [|reflexivity]. intros a [<-|[<-|[]]]; cbn; lia. Qed.

(** * C57 *)
Lemma recv_block_eq c n : forall st d c', recv_wrapper c n = (st, d, c') -> recv_block c n = (if st <? 0 then -1 else st, d, c').
Proof.
  induction c as [|e c IH]; intros st d c' H; cbn [recv_wrapper recv_block] in *.
  - injection H as <- <- <-. reflexivity.
  - destruct e as [l| | |p]; [|apply IH; exact H|..]; apply pair_equal_spec in H; destruct H as [H <-]; apply pair_equal_spec in H; destruct H as [<- <-]; try reflexivity.
    destruct (Z.ltb_spec (Z.of_nat (length (firstn n l))) 0); [lia|reflexivity].
Qed.

(** Full statement: a query of a TCP client is processed whole, however it is segmented.  In every case the reading stays in the
    buffer, and what is processed is a complete message as it arrived. *)
Theorem C57_sound c buf : net_ok c -> exists r, tcp_query c buf = Ret r /\
  match r with
  | NoQuery => True
  | Query buf' n c' => exists msg, stream c = framed msg ++ stream c' /\ n = Z.of_nat (length msg) /\ (length msg <= length buf)%nat /\ buf' = msg ++ skipn (length msg) buf /\ net_ok c'
  end.
Proof.
  intros HC. unfold tcp_query. destruct (recv_ok c 2 HC) as (st & d & c1 & E & HC1 & Ld & Bd & HD). rewrite (recv_block_eq _ _ _ _ _ E). clear E.
  destruct (Z.ltb_spec st 0) as [N|N]; [cbn [Z.eqb Pos.eqb]; eexists; split; [reflexivity|exact I]|].
  destruct (Z.eqb_spec st 2) as [->|N2]; [|eexists; split; [reflexivity|exact I]]. destruct HD as [(Hst & _)|(Hst & HS & _)]; [lia|].
  destruct (be16_from16 d ltac:(lia) Bd) as [E16 R16]. cbv zeta. destruct (Z.leb_spec (from16 d) (Z.of_nat (length buf))) as [Q|Q]; [|eexists; split; [reflexivity|exact I]].
  destruct (recv_ok c1 (Z.to_nat (from16 d)) HC1) as (st2 & d2 & c2 & E & HC2 & Ld2 & Bd2 & HD2). rewrite (recv_block_eq _ _ _ _ _ E). clear E.
  destruct (write_ok buf 0 d2) as (buf' & HW); [lia|]. rewrite HW. destruct (Z.ltb_spec st2 0) as [N3|N3].
  { destruct (Z.eqb_spec (-1) (from16 d)); [lia|]. eexists; split; [reflexivity|exact I]. }
  destruct (Z.eqb_spec st2 (from16 d)) as [E|E]; [|eexists; split; [reflexivity|exact I]]. destruct HD2 as [(Hst2 & _)|(Hst2 & HS2 & _)]; [lia|].
  eexists. split; [reflexivity|]. exists d2. unfold framed. rewrite <- Hst2, E, E16. split; [rewrite HS, HS2, app_assoc; reflexivity|]. split; [reflexivity|]. split; [lia|]. split; [apply write_front; exact HW|exact HC2].
Qed.
Print Assumptions C57_sound.

(** A query that is in one segment (its length in front or in the segment before) is processed. *)
Theorem C57_whole_partial c buf msg x more : net_ok c -> msg <> [] -> (length msg <= length buf)%nat -> Z.of_nat (length msg) < 65536 ->
  segs c = (framed msg ++ x) :: more \/ segs c = be16 (Z.of_nat (length msg)) :: (msg ++ x) :: more ->
  exists c', tcp_query c buf = Ret (Query (msg ++ skipn (length msg) buf) (Z.of_nat (length msg)) c') /\ stream c' = x ++ concat more.
Proof.
  intros HC NM LM L16 HS. unfold tcp_query.
  assert (H1 : exists c1 more', recv_block c 2 = (2, be16 (Z.of_nat (length msg)), c1) /\ segs c1 = (msg ++ x) :: more' /\ more' = more).
  { destruct HS as [HS|HS]; destruct (recv_first c 2 _ _ HS) as (c1 & E & SG & _); exists c1, more.
    - unfold framed in *. rewrite <- app_assoc in *. change (firstn 2 (be16 (Z.of_nat (length msg)) ++ msg ++ x)) with (be16 (Z.of_nat (length msg))) in E.
      change (skipn 2 (be16 (Z.of_nat (length msg)) ++ msg ++ x)) with (msg ++ x) in SG. rewrite (recv_block_eq _ _ _ _ _ E). split; [reflexivity|]. split; [|reflexivity]. destruct msg; [congruence|exact SG].
    - change (firstn 2 (be16 (Z.of_nat (length msg)))) with (be16 (Z.of_nat (length msg))) in E. change (skipn 2 (be16 (Z.of_nat (length msg)))) with (@nil Z) in SG.
      rewrite (recv_block_eq _ _ _ _ _ E). split; [reflexivity|]. split; [exact SG|reflexivity]. }
  destruct H1 as (c1 & more' & -> & SG & ->). cbn [Z.eqb Pos.eqb]. rewrite from16_be16 by lia. cbv zeta. destruct (Z.leb_spec (Z.of_nat (length msg)) (Z.of_nat (length buf))); [|lia].
  destruct (recv_first c1 (Z.to_nat (Z.of_nat (length msg))) _ _ SG) as (c2 & E & _ & ST). rewrite Nat2Z.id in *. rewrite firstn_app, firstn_all, Nat.sub_diag, firstn_O, app_nil_r in E.
  rewrite (recv_block_eq _ _ _ _ _ E). destruct (Z.ltb_spec (Z.of_nat (length msg)) 0); [lia|]. destruct (write_ok buf 0 msg) as (buf' & HW); [lia|]. rewrite HW, Z.eqb_refl.
  exists c2. split; [rewrite (write_front _ _ _ HW); reflexivity|]. rewrite ST, skipn_app, skipn_all, Nat.sub_diag. reflexivity.
Qed.
Print Assumptions C57_whole_partial.

(** Every query of two bytes or more is lost, and its connection closed, for some segmentation. *)
Theorem C57_whole_refuted buf msg : Forall is_byte msg -> (2 <= length msg)%nat ->
  exists c, net_ok c /\ stream c = framed msg /\ tcp_query c buf = Ret NoQuery.
Proof.
  intros HB HM. destruct (be16 (Z.of_nat (length msg))) as [|h [|l [|]]] eqn:E; try discriminate. exists (map Seg [[h]; l :: msg]).
  assert (B := be16_bytes (Z.of_nat (length msg))). rewrite E in B. inversion_clear B as [|? ? B1 B']. inversion_clear B' as [|? ? B2 _].
  split; [|split].
  - apply net_ok_list. intros x [<-|[<-|[]]]; (split; [discriminate|]); constructor; auto.
  - unfold framed. rewrite E. cbn [map stream app]. rewrite app_nil_r. reflexivity.
  - reflexivity.
Qed.
Print Assumptions C57_whole_refuted.

(** Likewise when the length comes whole but the message in two parts. *)
Theorem C57_parts_refuted buf msg : Forall is_byte msg -> (2 <= length msg <= length buf)%nat -> Z.of_nat (length msg) < 65536 ->
  exists c, net_ok c /\ segs c = [be16 (Z.of_nat (length msg)); firstn 1 msg; skipn 1 msg] /\ stream c = framed msg /\ tcp_query c buf = Ret NoQuery.
Proof.
  intros HB HM L16. destruct msg as [|a [|b m]]; cbn [length] in HM; try lia. set (msg := a :: b :: m) in *.
  assert (L : Z.of_nat (length msg) = 2 + Z.of_nat (length m)) by (unfold msg; cbn [length]; lia).
  exists (map Seg [be16 (Z.of_nat (length msg)); [a]; b :: m]). split; [|split; [reflexivity|split]].
  - apply net_ok_list. inversion_clear HB as [|? ? Ba HB']. intros l [<-|[<-|[<-|[]]]]; (split; [discriminate|]); [apply be16_bytes|constructor; [exact Ba|constructor]|exact HB'].
  - unfold framed, msg. cbn [map stream app]. rewrite app_nil_r. reflexivity.
  - unfold tcp_query. cbn [map recv_block]. change (firstn 2 (be16 (Z.of_nat (length msg)))) with (be16 (Z.of_nat (length msg))). rewrite be16_length. cbn [Z.of_nat Pos.of_succ_nat Pos.succ Z.eqb Pos.eqb].
    rewrite from16_be16 by lia. cbv zeta. destruct (Z.leb_spec (Z.of_nat (length msg)) (Z.of_nat (length buf))) as [_|Q]; [|unfold msg in *; cbn [length] in *; lia].
    change (rest_of (be16 (Z.of_nat (length msg))) 2 [Seg [a]; Seg (b :: m)]) with [Seg [a]; Seg (b :: m)]. cbn [recv_block]. rewrite Nat2Z.id.
    rewrite (firstn_all2 [a]) by (unfold msg; cbn [length]; lia). destruct (write_ok buf 0 [a]) as (buf' & HW); [cbn [length]; lia|]. rewrite HW.
    destruct (Z.eqb_spec (Z.of_nat (length [a])) (Z.of_nat (length msg))) as [Q|_]; [cbn [length] in Q; lia|reflexivity].
Qed.
Print Assumptions C57_parts_refuted.

Example C57_nonvacuous :
  let c := [Again; Seg [0; 3]; Seg [10; 20; 30; 0]; Seg [1; 7]] in
  segs c = be16 (Z.of_nat (length [10; 20; 30])) :: ([10; 20; 30] ++ [0]) :: [[1; 7]] /\
  tcp_query c [0; 0; 0; 0] = Ret (Query [10; 20; 30; 0] 3 [Seg [0]; Seg [1; 7]]).
Proof. split; reflexivity. Qed.

(** * C58 *)

(** What a SOCKS 5 proxy answers to a CONNECT it grants (RFC 1928): version, success, reserved, then the address it uses (IPv4,
    a name, or IPv6) and a port. *)
Inductive granted : list Z -> Prop :=
| granted_v4 v r a : length a = 6%nat -> granted ([v; 0; r; 1] ++ a)
| granted_name v r k a : 0 <= k < 256 -> Z.of_nat (length a) = k + 2 -> granted ([v; 0; r; 3] ++ [k] ++ a)
| granted_v6 v r a : length a = 18%nat -> granted ([v; 0; r; 4] ++ a).
(** What the client has to send: the greeting (no authentication), and CONNECT to a named host. *)
Definition connect (addr port : list Z) : list Z := [5; 1; 0] ++ [5; 1; 0; 3] ++ [Z.of_nat (length addr)] ++ addr ++ port.

Lemma recv_agains a c n : (forall e, In e a -> e = Again) -> recv_wrapper (a ++ c) n = recv_wrapper c n.
Proof. intros H. induction a as [|e a IH]; cbn [app recv_wrapper]; [reflexivity|]. rewrite (H e (or_introl eq_refl)). apply IH. intros e' A. apply H. right. exact A. Qed.
Lemma send_first at1 l m : (length m <= a_accepted at1)%nat -> send_wrapper (at1 :: l) m = (true, m).
Proof. intros H. cbn [send_wrapper]. rewrite firstn_all2 by exact H. rewrite Nat.eqb_refl. reflexivity. Qed.
Lemma rest_of_app p q c : q <> [] -> rest_of (p ++ q) (length p) c = Seg q :: c.
Proof. intros H. unfold rest_of. rewrite skipn_app, skipn_all, Nat.sub_diag. cbn [app skipn]. destruct q; [congruence|reflexivity]. Qed.
Lemma clear_seg fuel a x c : (2 <= length a < 128)%nat -> (2 <= fuel)%nat ->
  clear_loop fuel (Seg (a ++ x) :: c) (Z.of_nat (length a)) = Ret (rest_of (a ++ x) (length a) c).
Proof.
  intros H HF. destruct fuel as [|fuel]; [lia|]. cbn [clear_loop]. destruct (Z.leb_spec (Z.of_nat (length a)) 0); [lia|]. destruct (Z.ltb_spec 128 (Z.of_nat (length a))); [lia|].
  rewrite Nat2Z.id, firstn_app, firstn_all, Nat.sub_diag, firstn_O, app_nil_r. cbv zeta. destruct (Z.leb_spec (Z.of_nat (length a)) 0); [lia|]. rewrite Z.sub_diag.
  destruct fuel; [lia|]. cbn [clear_loop]. reflexivity.
Qed.

(** Full statement: when the negotiation succeeds the client has sent exactly the two requests of RFC 1928, and the
    connection is left at the first byte behind the proxy's answer.  Proved for sockets that take the two requests at once,
    answers that each come in one segment, and names of at most 125 bytes in the answer. *)
Theorem C58_proxy_partial at1 l1 at2 l2 g1 g2 ans x c addr port : (3 <= a_accepted at1)%nat -> (length (connect addr port) <= a_accepted at2)%nat ->
  (forall e, In e (g1 ++ g2) -> e = Again) -> granted ans -> (length ans <= 132)%nat ->
  exists c', proxy_preparation (at1 :: l1) (at2 :: l2) (g1 ++ Seg [5; 0] :: g2 ++ Seg (ans ++ x) :: c) addr port = Ret (true, connect addr port, c') /\ stream c' = x ++ stream c.
Proof.
  intros H1 H2 HG HA HL. unfold proxy_preparation. rewrite send_first by exact H1. cbn [negb].
  rewrite recv_agains by (intros e A; apply HG, in_or_app; left; exact A). cbn [recv_wrapper firstn length Z.of_nat Pos.of_succ_nat Pos.succ Z.eqb Pos.eqb negb nth orb].
  change (rest_of [5; 0] 2 (g2 ++ Seg (ans ++ x) :: c)) with (g2 ++ Seg (ans ++ x) :: c). cbv zeta.
  rewrite send_first by (unfold connect in H2; rewrite app_length in H2; lia). cbn [negb]. rewrite recv_agains by (intros e A; apply HG, in_or_app; right; exact A).
  assert (EC : [5; 1; 0] ++ [5; 1; 0; 3] ++ [Z.of_nat (length addr)] ++ addr ++ port = connect addr port) by reflexivity. cbn [recv_wrapper].
  destruct HA as [v r a La|v r k a Hk La|v r a La].
  - rewrite <- app_assoc. change (firstn 4 ([v; 0; r; 1] ++ a ++ x)) with [v; 0; r; 1]. cbn [length Z.of_nat Pos.of_succ_nat Pos.succ Z.eqb Pos.eqb negb nth].
    change 4%nat with (length [v; 0; r; 1]). rewrite rest_of_app by (destruct a; discriminate). replace 6 with (Z.of_nat (length a)) by lia. rewrite clear_seg by lia. cbn [bind].
    eexists. split; [rewrite EC; reflexivity|]. rewrite rest_of_stream, skipn_app, skipn_all, Nat.sub_diag. reflexivity.
  - rewrite <- app_assoc. change (firstn 4 ([v; 0; r; 3] ++ ([k] ++ a) ++ x)) with [v; 0; r; 3]. cbn [length Z.of_nat Pos.of_succ_nat Pos.succ Z.eqb Pos.eqb negb nth].
    change 4%nat with (length [v; 0; r; 3]). rewrite rest_of_app by discriminate. rewrite <- app_assoc. cbn [recv_wrapper]. change (firstn 1 ([k] ++ a ++ x)) with [k].
    change 1%nat with (length [k]). rewrite rest_of_app by (destruct a; [cbn in La; lia|discriminate]). cbn [app length] in HL.
    assert (ES : schar (k + 2) = Z.of_nat (length a)) by (unfold schar; rewrite Z.mod_small by lia; lia). rewrite ES. rewrite clear_seg by lia. cbn [bind].
    eexists. split; [rewrite EC; reflexivity|]. rewrite rest_of_stream, skipn_app, skipn_all, Nat.sub_diag. reflexivity.
  - rewrite <- app_assoc. change (firstn 4 ([v; 0; r; 4] ++ a ++ x)) with [v; 0; r; 4]. cbn [length Z.of_nat Pos.of_succ_nat Pos.succ Z.eqb Pos.eqb negb nth].
    change 4%nat with (length [v; 0; r; 4]). rewrite rest_of_app by (destruct a; discriminate). replace 18 with (Z.of_nat (length a)) by lia. rewrite clear_seg by lia. cbn [bind].
    eexists. split; [rewrite EC; reflexivity|]. rewrite rest_of_stream, skipn_app, skipn_all, Nat.sub_diag. reflexivity.
Qed.
Print Assumptions C58_proxy_partial.

(** With a longer name in the answer, or an answer in two segments, the negotiation "succeeds" with bytes of the answer left on
    the connection: they are taken for the length of the first reply. *)
Theorem C58_name_refuted addr port name : length name = 128%nat ->
  exists ans c', granted ans /\ proxy_preparation [mk_attempt 3 true] [mk_attempt (length (connect addr port)) true] [Seg [5; 0]; Seg ans] addr port =
    Ret (true, connect addr port, c') /\ stream c' = name.
Proof.
  intros L. exists ([5; 0; 0; 3] ++ [126] ++ name), [Seg name]. split; [apply granted_name; lia|]. split; [|cbn; apply app_nil_r].
  unfold proxy_preparation. rewrite send_first by (cbn; lia). cbn [negb recv_wrapper firstn length Z.of_nat Pos.of_succ_nat Pos.succ Z.eqb Pos.eqb nth orb]. cbv zeta.
  rewrite send_first by (unfold connect; cbn [a_accepted]; rewrite (app_length [5; 1; 0]); lia). change (rest_of [5; 0] 2 [Seg ([5; 0; 0; 3] ++ [126] ++ name)]) with [Seg ([5; 0; 0; 3] ++ [126] ++ name)].
  cbn [negb recv_wrapper]. change (firstn 4 ([5; 0; 0; 3] ++ [126] ++ name)) with [5; 0; 0; 3]. cbn [length Z.of_nat Pos.of_succ_nat Pos.succ Z.eqb Pos.eqb negb nth].
  change 4%nat with (length [5; 0; 0; 3]). rewrite rest_of_app by discriminate. cbn [recv_wrapper]. change (firstn 1 ([126] ++ name)) with [126]. change 1%nat with (length [126]). rewrite rest_of_app by (destruct name; [discriminate|discriminate]).
  reflexivity.
Qed.
Print Assumptions C58_name_refuted.
Theorem C58_split_refuted addr port : exists c c', stream c = [5; 0] ++ [5; 0; 0; 1; 10; 0; 0; 1; 0; 53] /\ net_ok c /\
  proxy_preparation [mk_attempt 3 true] [mk_attempt (length (connect addr port)) true] c addr port = Ret (true, connect addr port, c') /\ stream c' = [0; 53].
Proof.
  exists [Seg [5; 0]; Seg [5; 0; 0; 1; 10; 0; 0; 1]; Again; Seg [0; 53]], [Again; Seg [0; 53]]. split; [reflexivity|]. split.
  { intros e [<-|[<-|[<-|[<-|[]]]]]; try exact I; (split; [discriminate|]); repeat (apply Forall_cons; [unfold is_byte; lia|]); apply Forall_nil. }
  split; [|reflexivity]. unfold proxy_preparation. rewrite send_first by (cbn; lia). cbn [negb recv_wrapper firstn length Z.of_nat Pos.of_succ_nat Pos.succ Z.eqb Pos.eqb nth orb]. cbv zeta.
  rewrite send_first by (unfold connect; cbn [a_accepted]; rewrite (app_length [5; 1; 0]); lia). reflexivity.
Qed.
Print Assumptions C58_split_refuted.

Example C58_nonvacuous :
  let addr := [49; 46; 50; 46; 51; 46; 52] in
  granted [5; 0; 0; 1; 10; 0; 0; 1; 0; 53] /\
  proxy_preparation [mk_attempt 3 true] [mk_attempt 30 true] [Again; Seg [5; 0]; Again; Seg ([5; 0; 0; 1; 10; 0; 0; 1; 0; 53] ++ [9])] addr [0; 53] =
    Ret (true, [5; 1; 0; 5; 1; 0; 3; 7] ++ addr ++ [0; 53], [Seg [9]]).
Proof. split; [apply (granted_v4 5 0 [10; 0; 0; 1; 0; 53]); reflexivity|vm_compute; reflexivity]. Qed.
