From Verif Require Import Base BaseFacts Addr_Model Log_Model Log_Spec Log_Proofs.
Require Import ZifyBool ZifyNat.

(** * C78: the log *)
(** The log as a start of the program finds it: the text [start] in the log file, or no log file and a folder in which files can be created. *)
Definition log_found (fs : Z -> option lfile) (dir : bool) (start : list Z) : Prop :=
  fs 0 = Some (mk_lfile start true true) \/ fs 0 = None /\ dir = true /\ start = [].
(** Full statement: whatever the files and the failures of the system, messages are logged whole and in order and no log file is lost.  Proved if the old
    log files (up to number [B]) can be read, the path is not longer than 252 characters, the file is shorter than 2 GB, and renaming and creating the log file
    succeed; the limit on the length is then kept in the way of [rolled], each full file gets the first free number behind the last one, and the other files
    are not touched. *)
Theorem C78_kept_partial fs dir console folder limit start B fuel ms : log_found fs dir start -> (forall n f, 0 < n -> fs n = Some f -> lf_read f = true) -> (forall n, B < n -> fs n = None) -> 0 <= B ->
  (length folder <= 235)%nat -> 0 < limit -> Z.of_nat (length start) < 2147483648 -> Forall (fun m => Z.of_nat (length (logged m)) + limit < 2147483648) ms -> (Z.to_nat B < fuel)%nat ->
  exists g0 g old cur ns, log_init fs dir true console folder limit = (0, g0) /\ print_all fuel ms g0 = Ret g /\
  rolled limit start (map logged ms) old cur /\ numbered (fun n => fs n <> None) 0 ns /\
  lg_fs g 0 = Some (mk_lfile cur true true) /\ Forall2 (fun n o => lg_fs g n = Some (mk_lfile o true true)) ns old /\ (forall n, n <> 0 -> ~ In n ns -> lg_fs g n = fs n) /\
  lg_screen g = if console then concat (map logged ms) else [].
Proof.
  intros HF HR HB B0 HL Hl HS HM Hf. unfold log_init. cbn [negb]. destruct (Nat.leb_spec 256 (length folder + 17)) as [X|_]; [lia|].
  assert (HO : exists fs1, log_open fs dir = Some (fs1, Z.of_nat (length start)) /\ fs1 0 = Some (mk_lfile start true true) /\ forall n, n <> 0 -> fs1 n = fs n).
  { unfold log_open. destruct HF as [E0|(-> & -> & ->)]; [rewrite E0; cbn [lf_read lf_write andb lf_bytes]; rewrite as_int_id by lia|]; eexists; (split; [reflexivity|]).
    - split; [exact E0|reflexivity].
    - split; [apply put_same|]. intros n Hn. apply put_other, Hn. }
  destruct HO as (fs1 & EO & F0 & FN). rewrite EO. destruct (Z.leb_spec limit 0) as [X|_]; [lia|]. set (g0 := mk_log _ _ _ _ _ _ _ _).
  destruct (run_ok fuel ms B g0 start) as (g & old & cur & ns & G1 & G2 & G3 & (G4 & G5 & G6) & G7); [| |cbn [g0 lg_num]; lia|exact HM|].
  { repeat split; try assumption; cbn; lia. }
  { split; cbn [g0 lg_fs]; intros n; [intros f Hn; rewrite FN by lia; apply HR, Hn|intros Hn; rewrite FN by lia; apply HB, Hn]. }
  exists g0, g, old, cur, ns. split; [reflexivity|]. split; [exact G1|]. split; [exact G2|]. split; [apply (numbered_ext (fun n => lg_fs g0 n <> None)); [intros i Hi; cbn [g0 lg_fs]; rewrite FN by (cbn [g0 lg_num] in Hi; lia); reflexivity|exact G3]|].
  split; [exact G4|]. split; [exact G5|]. split; [intros n N1 N2; rewrite G6 by assumption; apply FN, N1|exact G7].
Qed.
Print Assumptions C78_kept_partial.
(** What [rolled] means: nothing is lost, files are full when they are put away, and none is longer than the limit and one message. *)
Theorem C78_whole limit start ms old cur : rolled limit start ms old cur -> concat old ++ cur = start ++ concat ms /\ Forall (fun o => limit <= Z.of_nat (length o)) old /\
  (forall L, 0 < limit -> Forall (fun m => Z.of_nat (length m) <= L) ms -> Z.of_nat (length start) < limit + L -> Forall (fun o => Z.of_nat (length o) < limit + L) (cur :: old)).
Proof.
  induction 1 as [start|start m ms old cur HL HR (I1 & I2 & I3)|start m ms old cur HL HR (I1 & I2 & I3)]; cbn [concat].
  - split; [rewrite app_nil_r; reflexivity|]. split; [constructor|]. intros L _ _ H. constructor; [exact H|constructor].
  - split; [rewrite I1, app_assoc; reflexivity|]. split; [exact I2|]. intros L H0 HM HS. inversion HM; subst. apply I3; [assumption..|]. rewrite app_length. lia.
  - split; [rewrite <- app_assoc, I1; reflexivity|]. split; [constructor; assumption|]. intros L H0 HM HS. inversion HM; subst. specialize (I3 L H0 ltac:(assumption) ltac:(lia)). inversion I3; subst. repeat (constructor; try assumption).
Qed.
Print Assumptions C78_whole.
(** No message is divided between two files. *)
Theorem C78_undivided limit start ms old cur : rolled limit start ms old cur -> exists gs, concat gs = ms /\ length gs = S (length old) /\
  old ++ [cur] = match map (@concat Z) gs with [] => [] | x :: l => (start ++ x) :: l end.
Proof.
  induction 1 as [start|start m ms old cur HL HR (gs & I1 & I2 & I3)|start m ms old cur HL HR (gs & I1 & I2 & I3)].
  - exists [[]]. split; [reflexivity|]. split; [reflexivity|]. cbn. rewrite app_nil_r. reflexivity.
  - destruct gs as [|x gs]; [discriminate|]. exists ((m :: x) :: gs). split; [cbn [concat app]; rewrite <- I1; reflexivity|]. split; [exact I2|]. rewrite I3. cbn [map concat]. rewrite <- app_assoc. reflexivity.
  - destruct gs as [|x gs]; [discriminate|]. exists ([] :: (m :: x) :: gs). split; [cbn [concat app]; rewrite <- I1; reflexivity|]. split; [cbn [length] in *; lia|]. cbn [app]. rewrite I3. cbn [map concat]. rewrite app_nil_r. reflexivity.
Qed.
Print Assumptions C78_undivided.
(** Stopping and starting the program between two messages makes no difference to the texts of the files. *)
Theorem C78_restart limit start ms1 old1 cur1 ms2 old2 cur2 : rolled limit start ms1 old1 cur1 -> rolled limit cur1 ms2 old2 cur2 -> rolled limit start (ms1 ++ ms2) (old1 ++ old2) cur2.
Proof. induction 1 as [start|start m ms old cur HL HR IH|start m ms old cur HL HR IH]; intros H; cbn [app]; [exact H|apply ro_stay; auto|apply ro_roll; auto]. Qed.
Print Assumptions C78_restart.
(** Without LogOn no file is touched; messages go to the screen if they are to. *)
Theorem C78_off fs dir console folder limit fuel ms : exists g0 g, log_init fs dir false console folder limit = (0, g0) /\ print_all fuel ms g0 = Ret g /\ lg_fs g = fs /\ lg_screen g = if console then concat (map logged ms) else [].
Proof.
  exists (mk_log fs LNull 0 0 0 0 console []). unfold log_init. cbn [negb].
  assert (H : forall s, exists g, print_all fuel ms (mk_log fs LNull 0 0 0 0 console s) = Ret g /\ lg_fs g = fs /\ lg_screen g = if console then s ++ concat (map logged ms) else s).
  { induction ms as [|m ms IH]; intros s; cbn [print_all].
    - eexists. split; [reflexivity|]. split; [reflexivity|]. cbn. rewrite app_nil_r. destruct console; reflexivity.
    - unfold log_print, log_inited. cbn [lg_ptr lg_console]. destruct console; cbn [negb bind]; rewrite ?stamp_logged.
      + unfold show. cbn [lg_console lg_fs lg_ptr lg_cur lg_num lg_limit lg_plen lg_screen]. destruct (IH (s ++ logged m)) as (g & -> & G1 & G2). exists g. split; [reflexivity|]. split; [exact G1|]. rewrite G2. cbn [map concat]. rewrite app_assoc. reflexivity.
      + apply IH. }
  destruct (H []) as (g & E & G1 & G2). exists g. split; [reflexivity|]. split; [exact E|]. split; [exact G1|]. exact G2.
Qed.
Print Assumptions C78_off.
(** A start that cannot log is reported: a path that is too long, a log file that cannot be written, no limit. *)
Theorem C78_fails fs dir console folder limit : fst (log_init fs dir true console folder limit) <> 0 <-> (239 <= length folder)%nat \/ (match fs 0 with Some f => lf_write f = false | None => dir = false end) \/ limit <= 0.
Proof.
  unfold log_init, log_open. cbn [negb]. destruct (Nat.leb_spec 256 (length folder + 17)); [cbn [fst]; split; [left; lia|lia]|]. destruct (fs 0) as [f|].
  - destruct (lf_read f), (lf_write f); cbn [andb fst]; destruct (Z.leb_spec limit 0); cbn [fst]; split; intros X; try lia; auto; try (right; left; reflexivity); destruct X as [X|[X|X]]; try lia; discriminate X.
  - destruct dir; cbn [fst]; destruct (Z.leb_spec limit 0); cbn [fst]; split; intros X; try lia; auto; try (right; left; reflexivity); destruct X as [X|[X|X]]; try lia; discriminate X.
Qed.
Print Assumptions C78_fails.

(** ** Where the full statement fails *)
Definition full : log := mk_log (fun n => if n =? 0 then Some (mk_lfile [97;98;99] true true) else None) LOpen 3 0 2 30 false [].
(** When the full file cannot be renamed, or the new one not be created, the next message is written to a file that is closed, or to no file. *)
Theorem C78_rename_refuted : forall fuel rok ook d k t, rok && ook = false -> (0 < fuel)%nat -> log_print fuel rok ook d k t full = UBW.
Proof. intros fuel rok ook d k t H Hf. destruct fuel as [|fuel]; [lia|]. destruct rok, ook; try discriminate H; reflexivity. Qed.
Print Assumptions C78_rename_refuted.
(** An old log file that may not be read is replaced. *)
Theorem C78_overwritten_refuted : exists fs g g', fs 1 = Some (mk_lfile [120] false true) /\ log_init fs true true false [47] 1 = (0, g) /\ log_print 5 true true [] None [97] g = Ret g' /\ lg_fs g' 1 = Some (mk_lfile [121] true true).
Proof. exists (fun n => if n =? 0 then Some (mk_lfile [121] true true) else if n =? 1 then Some (mk_lfile [120] false true) else None). eexists. eexists. split; [reflexivity|]. split; [vm_compute; reflexivity|]. split; [vm_compute; reflexivity|]. vm_compute. reflexivity. Qed.
Print Assumptions C78_overwritten_refuted.
(** A log file that may be written but not read is emptied at the start. *)
Theorem C78_emptied_refuted fs dir console folder limit t : (length folder <= 238)%nat -> 0 < limit -> fs 0 = Some (mk_lfile t false true) -> exists g, log_init fs dir true console folder limit = (0, g) /\ lg_fs g 0 = Some (mk_lfile [] false true).
Proof.
  intros H1 H2 H3. unfold log_init, log_open. cbn [negb]. destruct (Nat.leb_spec 256 (length folder + 17)); [lia|]. rewrite H3. cbn [lf_read lf_write andb]. destruct (Z.leb_spec limit 0); [lia|]. eexists. split; [reflexivity|]. cbn [lg_fs]. apply put_same.
Qed.
Print Assumptions C78_emptied_refuted.
(** A log file of 2 GB is taken for a short one and grows further. *)
Theorem C78_big_refuted fs t dir m : fs 0 = Some (mk_lfile t true true) -> Z.of_nat (length t) = 2147483648 -> Z.of_nat (length (logged m)) < 1000 -> exists g0 g, log_init fs dir true false [] 1000 = (0, g0) /\ log_print 1 true true (me_date m) (me_kind m) (me_text m) g0 = Ret g /\ lg_fs g 0 = Some (mk_lfile (t ++ logged m) true true).
Proof.
  intros H1 H2 H3. unfold log_init, log_open. cbn [negb length Nat.add Nat.leb]. rewrite H1. cbn [lf_read lf_write andb lf_bytes]. rewrite H2. change (as_int 2147483648) with (-2147483648). change (1000 <=? 0) with false. cbv iota. eexists. eexists. split; [reflexivity|].
  unfold log_print, log_inited, check_length. cbn [lg_ptr negb lg_limit lg_cur]. change (1000 <=? -2147483648) with false. cbv iota. cbn [bind]. unfold append. cbn [lg_ptr lg_fs]. rewrite H1. cbn [bind]. split; [reflexivity|]. unfold show. cbn [lg_console lg_fs]. rewrite put_same. cbn [lf_bytes lf_read lf_write]. rewrite stamp_logged. reflexivity.
Qed.
Print Assumptions C78_big_refuted.

(** ** A case: the log file has 4 bytes, ".1" exists, the limit is 5: three messages, two files are put away, as ".2" and ".3" *)
Definition ex_fs : Z -> option lfile := fun n => if n =? 0 then Some (mk_lfile [97;98;99;10] true true) else if n =? 1 then Some (mk_lfile [120] true false) else None.
Definition ex_m (t : Z) (k : option (list Z)) : message := mk_message [100] k [t; 10].
Definition ex_seen (g : log) := (lg_fs g 0, lg_fs g 1, lg_fs g 2, lg_fs g 3, lg_fs g 4, lg_screen g).
Example C78_nonvacuous : log_found ex_fs false [97;98;99;10] /\ (forall n f, 0 < n -> ex_fs n = Some f -> lf_read f = true) /\ (forall n, 1 < n -> ex_fs n = None) /\
  let ms := [ex_m 65 None; ex_m 66 (Some [73]); ex_m 67 None] in
  (let! g := print_all 2 ms (snd (log_init ex_fs false true true [47] 5)) in Ret (ex_seen g)) =
  Ret (Some (mk_lfile [100;32;67;10] true true), Some (mk_lfile [120] true false), Some (mk_lfile [97;98;99;10;100;32;65;10] true true), Some (mk_lfile [100;32;91;73;93;32;66;10] true true), None, concat (map logged ms)).
Proof.
  split; [left; reflexivity|]. split; [|split].
  - intros n f H. unfold ex_fs. destruct (Z.eqb_spec n 0); [lia|]. destruct (Z.eqb_spec n 1); [intros [= <-]; reflexivity|discriminate].
  - intros n H. unfold ex_fs. destruct (Z.eqb_spec n 0); [lia|]. destruct (Z.eqb_spec n 1); [lia|reflexivity].
  - vm_compute. reflexivity.
Qed.
