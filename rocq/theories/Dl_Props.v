(** C79: what an update of the hosts does. *)
From Verif Require Import Base BaseFacts Dl_Model Dl_Spec Dl_Proofs.
Require Import ZifyBool ZifyNat.

(** With sources that come to an end, the hosts file is replaced exactly when a source was obtained, by the sources in the configured order with a line feed behind each; otherwise it is left as it was. Nothing else is touched but the two temporary files.
    Partial: the rename succeeds and the temporary files can be written (see below for what happens otherwise). *)
Theorem C79_obtained_partial : forall expand can_write dl times fs urls os file,
  can_write (tmp_of file) = true -> can_write (tmp_of (tmp_of file)) = true -> sources expand fs dl times 0 urls os ->
  (forall u p, In u urls -> local u -> url_path u p -> expand p <> Some (tmp_of file) /\ expand p <> Some (tmp_of (tmp_of file))) ->
  exists n, forall fuel, (n < fuel)%nat -> exists r fs', multi expand can_write dl fuel true fs urls file times = Ret (r, fs') /\
    ((exists b, In (Some b) os) -> r = 0 /\ fs' file = Some (joined os)) /\
    (~ (exists b, In (Some b) os) -> r = 1 /\ fs' file = fs file) /\
    (forall p, p <> file -> p <> tmp_of file -> p <> tmp_of (tmp_of file) -> fs' p = fs p).
Proof.
  intros expand can_write dl times fs urls os file W1 W2 HS HL. destruct (multi_ok expand can_write dl times fs urls os file W1 W2 HS HL) as (n & G). exists n. intros fuel Hf.
  destruct (G true fuel Hf) as (fs' & E & F1 & _ & F3). eexists _, fs'. split; [exact E|]. destruct (got_one os) eqn:EG.
  - split; [intros _; split; [reflexivity|exact F1]|]. split; [intros X; contradict X; apply got_ok, EG|exact F3].
  - split; [intros X; apply got_ok in X; congruence|]. split; [intros _; split; [reflexivity|exact F1]|exact F3].
Qed.
Print Assumptions C79_obtained_partial.

(** With a limit on the attempts every list of sources comes to an end. *)
Theorem C79_ends : forall expand dl times fs urls j, 0 <= times -> exists os, sources expand fs dl times j urls os.
Proof.
  intros expand dl times fs urls j HT. revert j. induction urls as [|u urls IH]; intros j; [exists []; constructor|].
  destruct (IH (S j)) as (os & Hos). assert (HO : exists o, source expand fs dl times j u o); [|destruct HO as (o & HO); exists (o :: os); constructor; assumption].
  destruct (is_file u) eqn:EF.
  - apply is_file_ok in EF. destruct (path_total u) as [(p & Hp)|Hp]; [|exists None; apply so_bad; [exact EF|left; exact Hp]].
    destruct (le_lt_dec 384 (length p)) as [L|L]; [exists None; apply so_bad; [exact EF|right; exists p; auto]|]. destruct (expand p) as [q|] eqn:Eq; [|exists None; apply so_bad; [exact EF|right; exists p; auto]].
    destruct (fs q) as [b|] eqn:Eb; [exists (Some b); eapply so_file; eassumption|exists None; eapply so_missing; eassumption].
  - assert (NL : ~ local u) by (rewrite <- is_file_ok, EF; discriminate).
    assert (X : forall m, (exists k b, (k < m)%nat /\ (forall i, (i < k)%nat -> fst (dl j i) = false) /\ dl j k = (true, b)) \/ (forall i, (i < m)%nat -> fst (dl j i) = false)).
    { induction m as [|m [(k & b & Hk & H1 & H2)|H]]; [right; lia|left; exists k, b; split; [lia|auto]|]. destruct (dl j m) as [[|] b] eqn:E; [left; exists m, b; split; [lia|auto]|right]. intros i Hi. destruct (Nat.eq_dec i m) as [->|]; [rewrite E; reflexivity|apply H; lia]. }
    destruct (X (Z.to_nat times)) as [(k & b & Hk & H1 & H2)|H]; [exists (Some b); apply so_received with k; [exact NL|exact H1|exact H2|right; lia]|exists None; apply so_failed; [exact NL|exact HT|intros i Hi; apply H; lia]].
Qed.
Print Assumptions C79_ends.

(** The updating thread: the script is run, if there is one, and then the hosts, the refused names, the address rules and the server groups are loaded, exactly when a source was obtained. *)
Theorem C79_thread : forall expand can_write dl fs urls os file script,
  can_write (tmp_of file) = true -> can_write (tmp_of (tmp_of file)) = true -> sources expand fs dl (-1) 0 urls os ->
  (forall u p, In u urls -> local u -> url_path u p -> expand p <> Some (tmp_of file) /\ expand p <> Some (tmp_of (tmp_of file))) ->
  exists n, forall fuel, (n < fuel)%nat -> exists ev fs', update_thread expand can_write dl fuel true fs urls file script = Ret (ev, fs') /\
    ((exists b, In (Some b) os) -> ev = (if script then [RunScript] else []) ++ [LoadHosts; LoadFilter; LoadIpMisc; LoadModules] /\ fs' file = Some (joined os)) /\
    (~ (exists b, In (Some b) os) -> ev = [] /\ fs' file = fs file).
Proof.
  intros expand can_write dl fs urls os file script W1 W2 HS HL. destruct (C79_obtained_partial expand can_write dl (-1) fs urls os file W1 W2 HS HL) as (n & G). exists n. intros fuel Hf.
  destruct (G fuel Hf) as (r & fs' & E & H1 & H2 & _). unfold update_thread. rewrite E. cbn [bind fst snd]. eexists _, fs'. split; [reflexivity|]. split; intros X; [destruct (H1 X) as (-> & F)|destruct (H2 X) as (-> & F)]; split; (reflexivity || exact F).
Qed.
Print Assumptions C79_thread.

(** If the temporary file cannot be written nothing happens to any file, and nothing is loaded. *)
Theorem C79_unwritable : forall expand can_write dl fs urls file, can_write (tmp_of file) = false ->
  (forall fuel rok times, multi expand can_write dl fuel rok fs urls file times = Ret (-2, fs)) /\ (forall fuel rok script, update_thread expand can_write dl fuel rok fs urls file script = Ret ([], fs)).
Proof. intros expand can_write dl fs urls file W. unfold update_thread, multi. rewrite W. split; reflexivity. Qed.
Print Assumptions C79_unwritable.

(** The claim that a source that cannot be obtained does not keep the others from being used is false: the thread asks without a limit, so whatever the other sources are it never gets to load anything. *)
Theorem C79_blocked_refuted : forall expand can_write dl fs pre u post file script rok, ~ local u -> can_write (tmp_of file) = true -> (forall i, fst (dl (length pre) i) = false) ->
  forall fuel, update_thread expand can_write dl fuel rok fs (pre ++ u :: post) file script = Fuel.
Proof.
  intros expand can_write dl fs pre u post file script rok HU W HD fuel. unfold update_thread, multi. rewrite W, each_stuck by assumption. reflexivity.
Qed.
Print Assumptions C79_blocked_refuted.

(** The claim that a failing update leaves the hosts file is false: it is removed first, and when the rename then fails it is gone (the new one stays under the temporary name); the thread goes on to load all the same. *)
Theorem C79_rename_refuted : forall expand can_write dl times fs urls os file,
  can_write (tmp_of file) = true -> can_write (tmp_of (tmp_of file)) = true -> sources expand fs dl times 0 urls os -> (exists b, In (Some b) os) ->
  (forall u p, In u urls -> local u -> url_path u p -> expand p <> Some (tmp_of file) /\ expand p <> Some (tmp_of (tmp_of file))) ->
  exists n, forall fuel, (n < fuel)%nat -> exists fs', multi expand can_write dl fuel false fs urls file times = Ret (0, fs') /\ fs' file = None /\ fs' (tmp_of file) = Some (joined os).
Proof.
  intros expand can_write dl times fs urls os file W1 W2 HS HB HL. destruct (multi_ok expand can_write dl times fs urls os file W1 W2 HS HL) as (n & G). exists n. intros fuel Hf.
  destruct (G false fuel Hf) as (fs' & E & F1 & F2 & _). apply got_ok in HB. rewrite HB in *. exists fs'. split; [exact E|]. split; [exact F1|]. apply F2. right. reflexivity.
Qed.
Print Assumptions C79_rename_refuted.

(** "file:///h" holds "x", "a" is received with the second attempt, "file:///n" is not there: the file becomes "x", "a" and an empty line. *)
Example C79_nonvacuous :
  let expand := fun p : list Z => Some p in
  let dl := fun j k : nat => if (k =? 0)%nat then (false, [9]) else (true, [97]) in
  let fs := fun p => if same_path p [47;104] then Some [120] else if same_path p [70] then Some [111] else None in
  let urls := [[102;105;108;101;58;47;47;47;104]; [117]; [102;105;108;101;58;47;47;47;110]] in
  sources expand fs dl (-1) 0 urls [Some [120]; Some [97]; None] /\
  (forall u p, In u urls -> local u -> url_path u p -> expand p <> Some (tmp_of [70]) /\ expand p <> Some (tmp_of (tmp_of [70]))) /\
  (let! r := update_thread expand (fun _ => true) dl 5 true fs urls [70] true in Ret (fst r, snd r [70], snd r [70;46;116;109;112])) = Ret ([RunScript; LoadHosts; LoadFilter; LoadIpMisc; LoadModules], Some [120;10;97;10;10], None) /\
  ~ local [117] /\ (let! r := update_thread expand (fun _ => true) (fun _ _ => (false, [])) 50 true fs urls [70] true in Ret (fst r)) = Fuel /\
  (let! r := multi expand (fun _ => true) dl 5 true fs [[117]] [70] 1 in Ret (fst r, snd r [70])) = Ret (1, Some [111]).
Proof.
  cbv zeta. assert (P1 : url_path [102;105;108;101;58;47;47;47;104] [47;104]).
  { exists [102;105;108;101], 1%nat, [104]. split; [reflexivity|]. split; [reflexivity|]. split; [discriminate|]. intros a b X. destruct b; [reflexivity|]. apply (f_equal (@length Z)) in X as L. rewrite !app_length in L. cbn [length] in L. destruct a as [|? [|? [|? [|? a]]]]; cbn [app length] in *; try discriminate X; lia. }
  assert (P2 : url_path [102;105;108;101;58;47;47;47;110] [47;110]).
  { exists [102;105;108;101], 1%nat, [110]. split; [reflexivity|]. split; [reflexivity|]. split; [discriminate|]. intros a b X. destruct b; [reflexivity|]. apply (f_equal (@length Z)) in X as L. rewrite !app_length in L. cbn [length] in L. destruct a as [|? [|? [|? [|? a]]]]; cbn [app length] in *; try discriminate X; lia. }
  assert (N : ~ local [117]) by (intros (r & X); discriminate X).
  split.
  - constructor; [eapply so_file; [eexists; reflexivity|exact P1|cbn [length]; lia|reflexivity|reflexivity]|]. constructor; [apply so_received with 1%nat; [exact N|intros i Hi; assert (i = 0)%nat as -> by lia; reflexivity|reflexivity|left; lia]|].
    constructor; [eapply so_missing; [eexists; reflexivity|exact P2|cbn [length]; lia|reflexivity|reflexivity]|constructor].
  - split; [intros u p _ _ (s & n & rest & _ & -> & _); split; intros X; discriminate X|]. split; [vm_compute; reflexivity|]. split; [exact N|]. split; vm_compute; reflexivity.
Qed.
