Require Import Ascii String List.
From Verif Require Import Base BaseFacts Addr_Model Arr_Model Slist_Model Slist_Proofs Slist_Props Chunk_Model Chunk_Spec Chunk_Proofs Line_Model Line_Props Config_Model Config_Proofs Config_Props Main_Model Main_Spec.
Require Import ZifyBool ZifyNat.
Import List.
Open Scope list_scope.

(** A check for well-formed tables that does not look at the default strings. *)
Fixpoint nodupb (l : list (list Z)) : bool := match l with [] => true | x :: l' => negb (existsb (str_eqb x) l') && nodupb l' end.
Definition is_opt (t : atable) (n : list Z) : bool := existsb (fun x => str_eqb n (fst x) && match snd x with AOpt _ => true | _ => false end) t.
Definition goodb (t : atable) : bool :=
  nodupb (map fst t) && forallb (fun x => negb (has_wildcard (fst x)) && match snd x with AOpt _ => true | AAlias tg p _ => is_opt t tg && match p with Some y => nonulb y | None => true end end) t.
Lemma nodupb_ok l : nodupb l = true -> NoDup l.
Proof.
  induction l as [|x l IH]; intros H; [constructor|]. cbn [nodupb] in H. apply andb_prop in H. destruct H as (H1 & H2). constructor; [|apply IH, H2]. intros X. apply negb_true_iff in H1. assert (existsb (str_eqb x) l = true) by (apply existsb_exists; exists x; split; [exact X|apply str_eqb_refl]). congruence.
Qed.
Lemma goodb_ok t : goodb t = true -> good_table t.
Proof.
  intros H. apply andb_prop in H. destruct H as (H1 & H2). rewrite forallb_forall in H2. split; [apply nodupb_ok, H1|]. split; [|split].
  - intros n e Hi. specialize (H2 _ Hi). cbn [fst] in H2. apply andb_prop in H2. destruct H2 as (H2 & _). apply negb_true_iff in H2. apply has_wildcard_plain, H2.
  - intros n tg p d Hi. specialize (H2 _ Hi). cbn [fst snd] in H2. apply andb_prop in H2. destruct H2 as (_ & H2). apply andb_prop in H2. destruct H2 as (H2 & _). apply existsb_exists in H2. destruct H2 as ((m, e) & Hm & H2). cbn [fst snd] in H2. apply andb_prop in H2. destruct H2 as (H2 & H3). apply str_eqb_eq in H2. subst m. destruct e as [o|]; [|discriminate]. exists o. exact Hm.
  - intros n tg p d Hi. specialize (H2 _ Hi). cbn [fst snd] in H2. apply andb_prop in H2. destruct H2 as (_ & H2). apply andb_prop in H2. destruct H2 as (_ & H2). destruct p as [y|]; [apply nonulb_ok, H2|exact I].
Qed.
Fixpoint goods (t : atable) (os : list sop) : bool := goodb t && match os with [] => true | o :: os' => goods (spec_setup t o) os' end.
Lemma goods_ok os : forall t, goods t os = true -> Forall sop_ok os -> setups_ok t os.
Proof.
  induction os as [|o os IH]; intros t H HF; cbn [goods setups_ok] in *; apply andb_prop in H; destruct H as (H1 & H2); (split; [apply goodb_ok, H1|]); [exact I|]. inversion HF; subst. split; [assumption|]. apply IH; assumption.
Qed.
Lemma main_setup_ok dir stat hosts cache : ~ In 0 dir -> ~ In 0 stat -> ~ In 0 hosts -> ~ In 0 cache -> setups_ok [] (main_setup dir stat hosts cache).
Proof.
  intros H1 H2 H3 H4. apply goods_ok; [vm_compute; reflexivity|]. unfold main_setup. cbv zeta. repeat (apply Forall_cons; [cbn [sop_ok]; first [exact I|assumption|apply nonulb_ok; vm_compute; reflexivity]|]). apply Forall_nil.
Qed.
Lemma main_setup_manual dir stat hosts cache : fold_left spec_setup (main_setup dir stat hosts cache) [] = manual (pieces [44] dir) (pieces [44] stat) (pieces [44] hosts) (pieces [44] cache).
Proof. vm_compute. reflexivity. Qed.
Lemma pieces_whole x : ~ In 44 x -> pieces [44] x = [x].
Proof.
  induction x as [|c x IH]; intros H; [reflexivity|]. cbn [pieces]. rewrite IH by (intros X; apply H; right; exact X). assert (E : memz c [44] = false) by (apply not_true_iff_false; rewrite memz_in; intros [X|[]]; apply H; left; congruence). rewrite E. reflexivity.
Qed.

(** The paths. *)
Lemma file_in_ok home (name : string) : (length home + 15 + length (bytes name) < 1024)%nat -> file_in (Some (Some home)) (bytes name) = Ret (in_home home name).
Proof.
  intros H. unfold file_in, config_dir, cat_to, in_home. assert (L : length (home ++ bytes "/.dnsforwarder") = (length home + 14)%nat) by (rewrite app_length; reflexivity). rewrite L.
  destruct (Nat.ltb_spec 1024 (length home + 14 + 1)); [lia|]. cbn [bind]. rewrite app_length, L. cbn [length]. destruct (Nat.ltb_spec 1024 (length home + 14 + 1 + 1)); [lia|]. cbn [bind].
  replace ((home ++ bytes "/.dnsforwarder") ++ [47]) with (home ++ bytes "/.dnsforwarder/") by (rewrite <- app_assoc; reflexivity). destruct (bytes name) as [|c b] eqn:E; [rewrite app_nil_r; reflexivity|]. rewrite <- app_assoc, !app_length. change (length (bytes "/.dnsforwarder/")) with 15%nat. destruct (Nat.ltb_spec 1024 (length home + (15 + length (c :: b)) + 1)); [cbn [length] in *; lia|reflexivity].
Qed.
Lemma path_part_ok s : match path_part s with Some d => exists a b, s = a ++ 47 :: b /\ ~ In 47 b /\ d = a ++ [47] | None => ~ In 47 s end.
Proof.
  induction s as [|c s IH]; cbn [path_part]; [intros []|]. destruct (path_part s) as [r|].
  - destruct IH as (a & b & -> & H & ->). exists (c :: a), b. auto.
  - destruct (Z.eqb_spec c 47) as [->|N]; [exists [], s; auto|]. intros [X|X]; [congruence|contradiction].
Qed.

(** The command line. *)
Definition is_file_item (i : item) : list (list Z) := match i with IFile x => [x] | _ => [] end.
Definition others (l : list item) : list (list Z) := flat_map (fun i => match i with IOther a => [a] | _ => [] end) l.
Definition has_item (p : item -> bool) (l : list item) : bool := existsb p l.
Lemma arg_items l rest : Forall item_ok l -> forall f u, exists f', arg_parse (flat_map written l ++ rest) f u = arg_parse rest f' (rev (others l) ++ u) /\
  fl_file f' = fold_left (fun o i => match i with IFile x => Some x | _ => o end) l (fl_file f) /\
  fl_daemon f' = fl_daemon f || existsb (fun i => match i with IDaemon => true | _ => false end) l /\
  fl_show f' = fl_show f && negb (existsb (fun i => match i with IQuiet => true | _ => false end) l) /\
  fl_debug f' = fl_debug f || existsb (fun i => match i with IDebug => true | _ => false end) l.
Proof.
  induction 1 as [|i l Hi HF IH]; intros f u.
  - exists f. cbn [flat_map app others rev existsb fold_left negb]. rewrite !orb_false_r, andb_true_r. auto.
  - destruct i as [| | |x|a].
    + change (flat_map written (IQuiet :: l) ++ rest) with (bytes "-q" :: flat_map written l ++ rest). destruct (IH (mk_flags (fl_file f) (fl_daemon f) false (fl_debug f)) u) as (f' & E & A & B & C & D). exists f'. split; [exact E|]. cbn [fold_left existsb orb negb fl_file fl_daemon fl_show fl_debug] in *. rewrite andb_false_r. auto.
    + change (flat_map written (IDebug :: l) ++ rest) with (bytes "-D" :: flat_map written l ++ rest). destruct (IH (mk_flags (fl_file f) (fl_daemon f) (fl_show f) true) u) as (f' & E & A & B & C & D). exists f'. split; [exact E|]. cbn [fold_left existsb orb negb fl_file fl_daemon fl_show fl_debug] in *. rewrite orb_true_r. auto.
    + change (flat_map written (IDaemon :: l) ++ rest) with (bytes "-d" :: flat_map written l ++ rest). destruct (IH (mk_flags (fl_file f) true (fl_show f) (fl_debug f)) u) as (f' & E & A & B & C & D). exists f'. split; [exact E|]. cbn [fold_left existsb orb negb fl_file fl_daemon fl_show fl_debug] in *. rewrite orb_true_r. auto.
    + change (flat_map written (IFile x :: l) ++ rest) with (bytes "-f" :: x :: flat_map written l ++ rest). destruct (IH (mk_flags (Some x) (fl_daemon f) (fl_show f) (fl_debug f)) u) as (f' & E & A & B & C & D). exists f'. split; [exact E|]. cbn [fold_left existsb orb negb fl_file fl_daemon fl_show fl_debug] in *. auto.
    + change (flat_map written (IOther a :: l) ++ rest) with (a :: flat_map written l ++ rest). destruct (IH f (a :: u)) as (f' & E & A & B & C & D). exists f'. split; [|cbn [fold_left existsb orb negb]; auto].
      cbn [others flat_map]. change (rev ([a] ++ flat_map (fun i => match i with IOther a => [a] | _ => [] end) l) ++ u) with (rev (a :: others l) ++ u). cbn [rev]. rewrite <- app_assoc. cbn [app]. rewrite <- E. cbn [item_ok] in Hi.
      assert (N : forall w, In w (map bytes ["-h"; "-q"; "-D"; "-d"; "-f"; "-p"]%string) -> str_eqb a w = false) by (intros w Hw; destruct (str_eqb a w) eqn:X; [apply str_eqb_eq in X; subst w; contradiction|reflexivity]).
      cbn [arg_parse]. rewrite (N (bytes "-h")), (N (bytes "-q")), (N (bytes "-D")), (N (bytes "-d")), (N (bytes "-f")), (N (bytes "-p")) by (cbn [map In]; repeat first [left; reflexivity|right]). reflexivity.
Qed.
(** Every command line is of one of four kinds. *)
Lemma arg_cover : forall args, exists l tail, Forall item_ok l /\ args = flat_map written l ++ tail /\ (tail = [] \/ tail = [bytes "-f"] \/ (exists r, tail = bytes "-h" :: r) \/ (exists r, tail = bytes "-p" :: r)).
Proof.
  intros args. remember (length args) as n eqn:Hn. revert args Hn. induction n as [n IH] using lt_wf_ind. intros args Hn. destruct args as [|a args]; [exists [], []; auto|]. cbn [length] in Hn.
  assert (G : forall i rest, written i = [a] -> args = rest -> item_ok i -> exists l tail, Forall item_ok l /\ a :: args = flat_map written l ++ tail /\ (tail = [] \/ tail = [bytes "-f"] \/ (exists r, tail = bytes "-h" :: r) \/ (exists r, tail = bytes "-p" :: r))).
  { intros i rest E -> Hi. destruct (IH (length rest) ltac:(lia) rest eq_refl) as (l & tail & HF & -> & HT). exists (i :: l), tail. split; [constructor; assumption|]. split; [cbn [flat_map]; rewrite E; reflexivity|exact HT]. }
  destruct (str_eqb a (bytes "-h")) eqn:E1; [apply str_eqb_eq in E1; subst a; exists [], (bytes "-h" :: args); split; [constructor|]; split; [reflexivity|]; right; right; left; eauto|].
  destruct (str_eqb a (bytes "-q")) eqn:E2; [apply str_eqb_eq in E2; subst a; apply (G IQuiet args eq_refl eq_refl I)|].
  destruct (str_eqb a (bytes "-D")) eqn:E3; [apply str_eqb_eq in E3; subst a; apply (G IDebug args eq_refl eq_refl I)|].
  destruct (str_eqb a (bytes "-d")) eqn:E4; [apply str_eqb_eq in E4; subst a; apply (G IDaemon args eq_refl eq_refl I)|].
  destruct (str_eqb a (bytes "-f")) eqn:E5.
  { apply str_eqb_eq in E5; subst a. destruct args as [|x args]; [exists [], [bytes "-f"]; auto|]. cbn [length] in Hn. destruct (IH (length args) ltac:(lia) args eq_refl) as (l & tail & HF & -> & HT). exists (IFile x :: l), tail. split; [constructor; [exact I|assumption]|]. split; [reflexivity|exact HT]. }
  destruct (str_eqb a (bytes "-p")) eqn:E6; [apply str_eqb_eq in E6; subst a; exists [], (bytes "-p" :: args); split; [constructor|]; split; [reflexivity|]; right; right; right; eauto|].
  apply (G (IOther a) args eq_refl eq_refl). cbn [item_ok]. intros X. repeat (destruct X as [X|X]; [subst a; rewrite str_eqb_refl in *; discriminate|]). destruct X.
Qed.
