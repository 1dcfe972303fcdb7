From Verif Require Import Base BaseFacts Addr_Model Rdata3_Proofs Log_Model Log_Spec.
Require Import ZifyBool ZifyNat.

Fixpoint print_all (fuel : nat) (ms : list message) (g : log) : outcome log :=
  match ms with [] => Ret g | m :: ms' => let! g1 := log_print fuel true true (me_date m) (me_kind m) (me_text m) g in print_all fuel ms' g1 end.
Lemma stamp_logged m : stamp (me_date m) (me_kind m) ++ me_text m = logged m.
Proof. unfold stamp, logged. destruct (me_kind m) as [k|]; repeat (rewrite <- app_assoc; cbn [app]); reflexivity. Qed.
Lemma as_int_id v : -2147483648 <= v < 2147483648 -> as_int v = v.
Proof. intros H. unfold as_int. rewrite Z.mod_small by lia. lia. Qed.
Lemma put_same fs n f : put_file fs n f n = f.
Proof. unfold put_file. rewrite Z.eqb_refl. reflexivity. Qed.
Lemma put_other fs n f k : k <> n -> put_file fs n f k = fs k.
Proof. unfold put_file. intros H. destruct (Z.eqb_spec k n); [contradiction|reflexivity]. Qed.
Lemma print_u_10 n : (length (print_u n) <= 10)%nat.
Proof. apply print_loop_len. Qed.
Lemma numbered_ext u1 u2 k ns : (forall i, k < i -> u1 i <-> u2 i) -> numbered u1 k ns -> numbered u2 k ns.
Proof. intros H N. revert H. induction N as [|k n ns H1 H2 H3 N IH]; intros H; [constructor|]. constructor; [exact H1|intros X; apply H2, H; auto|intros i Hi; apply H; [lia|auto]|]. apply IH. intros i Hi. apply H. lia. Qed.
Lemma numbered_gt u k ns : numbered u k ns -> forall n, In n ns -> k < n.
Proof. induction 1 as [|k n ns H1 H2 H3 N IH]; intros x; [intros []|]. intros [<-|X]; [exact H1|]. specialize (IH x X). lia. Qed.

(** The state with the log file open. *)
Definition writing (g : log) (start : list Z) : Prop :=
  lg_ptr g = LOpen /\ lg_fs g 0 = Some (mk_lfile start true true) /\ lg_cur g = Z.of_nat (length start) /\ 0 <= lg_num g /\ 0 < lg_limit g /\ (lg_plen g <= 252)%nat.
Definition plainfs (B : Z) (fs : Z -> option lfile) : Prop := (forall n f, 0 < n -> fs n = Some f -> lf_read f = true) /\ (forall n, B < n -> fs n = None).

Lemma roll_ok B g start : writing g start -> plainfs B (lg_fs g) -> forall fuel n, 0 <= n -> (Z.to_nat (B - n) < fuel)%nat -> exists n1, n < n1 /\ lg_fs g n1 = None /\ (forall i, n < i < n1 -> lg_fs g i <> None) /\
  roll fuel true true g n = Ret (mk_log (put_file (put_file (put_file (lg_fs g) n1 (lg_fs g 0)) 0 None) 0 (Some (mk_lfile [] true true))) LOpen 0 n1 (lg_limit g) (lg_plen g) (lg_console g) (lg_screen g)).
Proof.
  intros (H1 & H2 & H3 & H4 & H5 & H6) (R & HB). induction fuel as [|fuel IH]; intros n Hn Hf; [lia|]. cbn [roll]. pose proof (print_u_10 (n + 1)). destruct (Nat.leb_spec 264 (lg_plen g + 1 + length (print_u (n + 1)))) as [X|_]; [lia|].
  unfold readable. destruct (lg_fs g (n + 1)) as [f|] eqn:E.
  - rewrite (R (n + 1) f) by (auto; lia). assert (n + 1 <= B) by (destruct (Z_lt_le_dec B (n + 1)) as [X|X]; [rewrite HB in E by exact X; discriminate|exact X]). destruct (IH (n + 1)) as (n1 & G1 & G2 & G3 & ->); [lia|lia|]. exists n1. split; [lia|]. split; [exact G2|]. split; [|reflexivity].
    intros i Hi. destruct (Z.eq_dec i (n + 1)) as [->|]; [congruence|]. apply G3. lia.
  - cbn [negb]. exists (n + 1). split; [lia|]. split; [exact E|]. split; [intros i Hi; lia|reflexivity].
Qed.
Lemma print_ok B fuel m g start : writing g start -> plainfs B (lg_fs g) -> (Z.to_nat (B - lg_num g) < fuel)%nat -> Z.of_nat (length (logged m)) + lg_limit g < 2147483648 ->
  exists g', log_print fuel true true (me_date m) (me_kind m) (me_text m) g = Ret g' /\ lg_limit g' = lg_limit g /\ lg_plen g' = lg_plen g /\ lg_console g' = lg_console g /\ lg_screen g' = (if lg_console g then lg_screen g ++ logged m else lg_screen g) /\
  ((Z.of_nat (length start) < lg_limit g /\ writing g' (start ++ logged m) /\ lg_num g' = lg_num g /\ forall n, n <> 0 -> lg_fs g' n = lg_fs g n) \/
   (lg_limit g <= Z.of_nat (length start) /\ writing g' (logged m) /\ exists n1, lg_num g' = n1 /\ lg_num g < n1 /\ lg_fs g n1 = None /\ (forall i, lg_num g < i < n1 -> lg_fs g i <> None) /\ lg_fs g' n1 = Some (mk_lfile start true true) /\ forall n, n <> 0 -> n <> n1 -> lg_fs g' n = lg_fs g n)).
Proof.
  intros HW HP Hf Hm. pose proof HW as (H1 & H2 & H3 & H4 & H5 & H6). unfold log_print, log_inited. rewrite H1. cbn [negb]. rewrite stamp_logged. set (t := logged m) in *. unfold check_length. destruct (Z.leb_spec (lg_limit g) (lg_cur g)) as [HL|HL].
  - destruct (roll_ok B g start HW HP fuel (lg_num g) H4 Hf) as (n1 & G1 & G2 & G3 & ->). cbn [bind]. unfold append. cbn [lg_ptr lg_fs]. rewrite put_same. cbn [bind lf_bytes lf_read lf_write lg_cur lg_num lg_limit lg_plen lg_console lg_screen app Z.add]. rewrite as_int_id by lia.
    eexists. split; [reflexivity|]. unfold show. cbn [lg_console]. destruct (lg_console g) eqn:EC; cbn [lg_fs lg_ptr lg_cur lg_num lg_limit lg_plen lg_console lg_screen].
    + repeat (split; [reflexivity|]). right. split; [lia|]. split; [repeat split; cbn [lg_fs lg_ptr lg_cur lg_num lg_limit lg_plen]; auto; try lia; apply put_same|]. exists n1. split; [reflexivity|]. split; [exact G1|]. split; [exact G2|]. split; [exact G3|]. split.
      * rewrite !put_other by lia. rewrite put_same. exact H2.
      * intros n N1 N2. rewrite !put_other by assumption. reflexivity.
    + repeat (split; [first [reflexivity|assumption]|]). right. split; [lia|]. split; [repeat split; cbn [lg_fs lg_ptr lg_cur lg_num lg_limit lg_plen]; auto; try lia; apply put_same|]. exists n1. split; [reflexivity|]. split; [exact G1|]. split; [exact G2|]. split; [exact G3|]. split.
      * rewrite !put_other by lia. rewrite put_same. exact H2.
      * intros n N1 N2. rewrite !put_other by assumption. reflexivity.
  - cbn [bind]. unfold append. rewrite H1, H2. cbn [bind lf_bytes lf_read lf_write]. rewrite as_int_id by lia. eexists. split; [reflexivity|]. unfold show. cbn [lg_console]. destruct (lg_console g) eqn:EC; cbn [lg_fs lg_ptr lg_cur lg_num lg_limit lg_plen lg_console lg_screen].
    + repeat (split; [reflexivity|]). left. split; [lia|]. split; [repeat split; cbn [lg_fs lg_ptr lg_cur lg_num lg_limit lg_plen]; auto; try lia; try apply put_same; rewrite app_length; lia|]. split; [reflexivity|]. intros n Hn. apply put_other, Hn.
    + repeat (split; [first [reflexivity|assumption]|]). left. split; [lia|]. split; [repeat split; cbn [lg_fs lg_ptr lg_cur lg_num lg_limit lg_plen]; auto; try lia; try apply put_same; rewrite app_length; lia|]. split; [reflexivity|]. intros n Hn. apply put_other, Hn.
Qed.

(** The files a run leaves. *)
Definition left_files (fs0 fs : Z -> option lfile) (ns : list Z) (old : list (list Z)) (cur : list Z) : Prop :=
  fs 0 = Some (mk_lfile cur true true) /\ Forall2 (fun n o => fs n = Some (mk_lfile o true true)) ns old /\ (forall n, n <> 0 -> ~ In n ns -> fs n = fs0 n).
Lemma run_ok fuel ms : forall B g start, writing g start -> plainfs B (lg_fs g) -> (Z.to_nat (B - lg_num g) < fuel)%nat -> Forall (fun m => Z.of_nat (length (logged m)) + lg_limit g < 2147483648) ms ->
  exists g' old cur ns, print_all fuel ms g = Ret g' /\ rolled (lg_limit g) start (map logged ms) old cur /\ numbered (fun n => lg_fs g n <> None) (lg_num g) ns /\ left_files (lg_fs g) (lg_fs g') ns old cur /\
  lg_screen g' = (if lg_console g then lg_screen g ++ concat (map logged ms) else lg_screen g).
Proof.
  induction ms as [|m ms IH]; intros B g start HW HP Hf HM.
  - exists g, [], start, []. split; [reflexivity|]. split; [constructor|]. split; [constructor|]. split; [|cbn [map concat]; rewrite app_nil_r; destruct (lg_console g); reflexivity]. split; [apply HW|]. split; [constructor|]. reflexivity.
  - inversion HM as [|? ? Hm HM']; subst. destruct (print_ok B fuel m g start HW HP Hf Hm) as (g1 & E & E1 & E2 & E3 & E4 & HC). cbn [print_all map]. rewrite E. cbn [bind].
    assert (HS : forall g', lg_screen g' = (if lg_console g1 then lg_screen g1 ++ concat (map logged ms) else lg_screen g1) -> lg_screen g' = (if lg_console g then lg_screen g ++ concat (logged m :: map logged ms) else lg_screen g)).
    { intros g' ->. rewrite E3, E4. destruct (lg_console g); [|reflexivity]. cbn [concat]. rewrite app_assoc. reflexivity. }
    rewrite <- E1 in HM'. destruct HC as [(L & HW1 & HN & HF)|(L & HW1 & n1 & HN & G1 & G2 & G3 & G4 & G5)].
    + destruct (IH B g1 (start ++ logged m) HW1) as (g' & old & cur & ns & F1 & F2 & F3 & (F4 & F5 & F6) & F7); [| |exact HM'|].
      { destruct HP as (R & HB). pose proof HW as (_ & _ & _ & X & _). split; intros n; [intros f Hn; rewrite HF by lia; apply R, Hn|]. intros Hn. destruct (Z.eq_dec n 0) as [->|N]; [|rewrite HF by exact N; apply HB, Hn]. exfalso. destruct HW as (_ & Y & _). rewrite HB in Y by exact Hn. discriminate. }
      { rewrite HN. exact Hf. }
      exists g', old, cur, ns. split; [exact F1|]. split; [rewrite E1 in F2; apply ro_stay; [exact L|exact F2]|]. split; [|split; [|apply HS, F7]].
      * rewrite HN in F3. apply (numbered_ext (fun n => lg_fs g1 n <> None)); [intros i Hi; rewrite HF; [reflexivity|destruct HW as (_ & _ & _ & Y & _); lia]|exact F3].
      * split; [exact F4|]. split; [exact F5|]. intros n N1 N2. rewrite F6 by assumption. apply HF, N1.
    + destruct HW as (W1 & W2 & W3 & W4 & W5 & W6). destruct HP as (R & HB).
      destruct (IH (Z.max B n1) g1 (logged m) HW1) as (g' & old & cur & ns & F1 & F2 & F3 & (F4 & F5 & F6) & F7); [| |exact HM'|].
      { split; intros n; [intros f Hn Ef|intros Hn].
        - destruct (Z.eq_dec n n1) as [->|N]; [rewrite G4 in Ef; injection Ef as <-; reflexivity|]. rewrite G5 in Ef by lia. apply (R n f Hn Ef).
        - rewrite G5 by lia. apply HB. lia. }
      { rewrite HN. lia. }
      rewrite HN in F3. exists g', (start :: old), cur, (n1 :: ns). split; [exact F1|]. split; [rewrite E1 in F2; apply ro_roll; [exact L|exact F2]|].
      assert (F3' : numbered (fun n => lg_fs g n <> None) n1 ns) by (apply (numbered_ext (fun n => lg_fs g1 n <> None)); [intros i Hi; rewrite G5 by lia; reflexivity|exact F3]).
      split; [constructor; [exact G1|intros X; apply X, G2|exact G3|exact F3']|]. split; [|apply HS, F7]. split; [exact F4|]. split.
      * constructor; [|exact F5]. rewrite F6; [exact G4|lia|]. intros X. pose proof (numbered_gt _ _ _ F3' n1 X). lia.
      * intros n N1 N2. rewrite F6; [apply G5; [exact N1|]|exact N1|]; intros X; apply N2; [left; symmetry; exact X|right; exact X].
Qed.
