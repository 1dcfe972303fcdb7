(** C80: what the command line and the configuration file mean, and what is started. *)
Require Import Ascii String List.
From Verif Require Import Base BaseFacts Addr_Model Arr_Model Slist_Model Slist_Proofs Slist_Props Chunk_Model Chunk_Spec Chunk_Proofs Line_Model Line_Props Config_Model Config_Proofs Config_Props Main_Model Main_Spec Main_Proofs.
Require Import ZifyBool ZifyNat.
Import List.
Open Scope list_scope.

(** The arguments: the last -f counts; -q, -D and -d count wherever they are and however often; anything else is reported and does not matter. *)
Theorem C80_args : forall l, Forall item_ok l -> exists f, arg_parse (flat_map written l) flags0 [] = Ret (Parsed f (others l)) /\
  match fl_file f with
  | Some x => exists a b, l = a ++ IFile x :: b /\ forall y, ~ In (IFile y) b
  | None => forall y, ~ In (IFile y) l
  end /\ (fl_daemon f = true <-> In IDaemon l) /\ (fl_show f = false <-> In IQuiet l) /\ (fl_debug f = true <-> In IDebug l).
Proof.
  intros l HF. destruct (arg_items l [] HF flags0 []) as (f & E & A & B & C & D). rewrite !app_nil_r in E. exists f. split; [rewrite E; cbn [arg_parse]; rewrite rev_involutive; reflexivity|]. cbn [flags0 fl_file fl_daemon fl_show fl_debug orb andb] in *. split.
  - rewrite A. clear. induction l as [|i l IH] using rev_ind; [cbn [fold_left]; intros y []|]. rewrite fold_left_app. cbn [fold_left]. destruct (fold_left _ l None) as [x|].
    + destruct IH as (a & b & -> & H). assert (G : forall j, (forall y, j <> IFile y) -> exists a0 b0, (a ++ IFile x :: b) ++ [j] = a0 ++ IFile x :: b0 /\ forall y, ~ In (IFile y) b0) by (intros j Hj; exists a, (b ++ [j]); split; [rewrite <- app_assoc; reflexivity|]; intros y X; apply in_app_or in X; destruct X as [X|[X|[]]]; [exact (H y X)|exact (Hj y X)]).
      destruct i as [| | |z|o]; try (apply G; discriminate). exists (a ++ IFile x :: b), []. split; [reflexivity|intros y []].
    + destruct i as [| | |z|o]; try (intros y X; apply in_app_or in X; destruct X as [X|[X|[]]]; [exact (IH y X)|discriminate X]). exists l, []. split; [reflexivity|intros y []].
  - rewrite B, C, D, negb_false_iff, !existsb_exists. repeat split; [intros ([| | | |] & H & X); try discriminate; exact H|intros H; eexists; split; [exact H|reflexivity]|intros ([| | | |] & H & X); try discriminate; exact H|intros H; eexists; split; [exact H|reflexivity]|intros ([| | | |] & H & X); try discriminate; exact H|intros H; eexists; split; [exact H|reflexivity]].
Qed.
Print Assumptions C80_args.
(** -h and -p end the program whatever comes behind them. *)
Theorem C80_args_exit : forall l r, Forall item_ok l -> arg_parse (flat_map written l ++ bytes "-h" :: r) flags0 [] = Ret ShowHelp /\ arg_parse (flat_map written l ++ bytes "-p" :: r) flags0 [] = Ret DidPrepare.
Proof. intros l r HF. destruct (arg_items l (bytes "-h" :: r) HF flags0 []) as (f & E & _). destruct (arg_items l (bytes "-p" :: r) HF flags0 []) as (f' & E' & _). rewrite E, E'. split; reflexivity. Qed.
Print Assumptions C80_args_exit.
(** The claim that every command line is understood is false: with -f as the last argument the walk goes on behind the end of the arguments. *)
Theorem C80_args_refuted : forall l, Forall item_ok l -> arg_parse (flat_map written l ++ [bytes "-f"]) flags0 [] = UBR.
Proof. intros l HF. destruct (arg_items l [bytes "-f"] HF flags0 []) as (f & E & _). rewrite E. reflexivity. Qed.
Print Assumptions C80_args_refuted.
(** Every command line is of one of these kinds. *)
Theorem C80_args_all : forall args, exists l, Forall item_ok l /\ (args = flat_map written l \/ args = flat_map written l ++ [bytes "-f"] \/ exists r, args = flat_map written l ++ bytes "-h" :: r \/ args = flat_map written l ++ bytes "-p" :: r).
Proof.
  intros args. destruct (arg_cover args) as (l & tail & HF & -> & [->|[->|[(r & ->)|(r & ->)]]]); exists l; (split; [exact HF|]); [left; apply app_nil_r|right; left; reflexivity|right; right; exists r; left; reflexivity|right; right; exists r; right; reflexivity].
Qed.
Print Assumptions C80_args_all.

(** The default configuration file, and CONFIGFILEDIRECTORY. *)
Theorem C80_file_partial : forall home, (length home + 21 < 320)%nat -> default_config (Some (Some home)) = Ret (in_home home "config").
Proof.
  intros home H. unfold default_config, config_dir, cat_to, in_home. assert (L : length (home ++ bytes "/.dnsforwarder") = (length home + 14)%nat) by (rewrite app_length; reflexivity). rewrite L. destruct (Nat.ltb_spec 320 (length home + 14 + 1)); [lia|]. cbn [bind]. rewrite app_length, L. change (length (bytes "/config")) with 7%nat. destruct (Nat.ltb_spec 320 (length home + 14 + 7 + 1)); [lia|]. rewrite <- app_assoc. reflexivity.
Qed.
Print Assumptions C80_file_partial.
Theorem C80_directory : forall file, (length file < 1024)%nat -> (exists a b, file = a ++ 47 :: b /\ ~ In 47 b /\ file_dir file = a ++ [47]) \/ (~ In 47 file /\ file_dir file = [46; 47]).
Proof. intros file H. unfold file_dir. rewrite firstn_all2 by lia. pose proof (path_part_ok file) as X. destruct (path_part file) as [d|]; [left; destruct X as (a & b & E & N & ->); eauto|right; auto]. Qed.
Print Assumptions C80_directory.

(** With a home directory whose name is not too long and has no comma: every option of the manual has the value that the lines of the file give it, beginning with the default of the manual.  Without a file the defaults are used. *)
Theorem C80_options_partial : forall junk stale expand home file bs fuel, (forall x room, ~ In 0 x -> ~ In 0 (expand x room)) -> ~ In 0 home -> ~ In 44 home -> (length home + 37 < 1024)%nat ->
  match bs with Some b => Forall (line_ok 2048) (file_lines b) /\ end_ok b /\ (length b < fuel)%nat | None => True end ->
  let t := manual [in_home home ""] [in_home home "StatisticTemplate.html"] [in_home home "hosts.txt"] [in_home home "cache"] in
  exists g, env_init junk stale expand fuel (Some (Some home)) file bs = Ret (in_home home "", file_dir file, g) /\
    (forall name, ~ In name (map fst t) -> config_get g name = Ret None) /\
    forall name d, In (name, AOpt d) t -> exists o, config_get g name = Ret (Some o) /\ c_type o = d_type d /\
      let gs := given t name (match bs with Some b => content b | None => [] end) in
      match d_type d with
      | TInt => c_int o = final_int stale (d_strat d) (d_int d) (flat_map texts gs)
      | TBool => c_bool o = final_bool (d_strat d) (d_bool d) (flat_map texts gs)
      | TStr => exists m, forall w, (m < w)%nat -> sl_walk w (c_str o) None = Ret (final_strings (d_strat d) (d_str d) (d_delims d) gs)
      | TPath => exists m, forall w, (m < w)%nat -> sl_walk w (c_str o) None = Ret (final_paths (d_strat d) (d_str d) (flat_map (paths expand) gs))
      end.
Proof.
  intros junk stale expand home file bs fuel HX H0 HC HL HB t.
  assert (NB : forall b y, nonulb b = true -> ~ In 0 y -> ~ In 0 (y ++ b)) by (intros b y Hb Hy X; apply in_app_or in X; destruct X as [X|X]; [exact (Hy X)|exact (nonulb_ok b Hb X)]).
  assert (NC : forall n : string, memz 44 (bytes n) = false -> pieces [44] (in_home home n) = [in_home home n]).
  { intros n Hn. apply pieces_whole. unfold in_home. intros X. apply in_app_or in X. destruct X as [X|X]; [exact (HC X)|]. apply in_app_or in X. destruct X as [X|X]; [cbv in X; repeat (destruct X as [X|X]; [discriminate X|]); exact X|]. assert (memz 44 (bytes n) = true) by (apply memz_in, X). congruence. }
  pose proof (main_setup_ok (in_home home "") (in_home home "StatisticTemplate.html") (in_home home "hosts.txt") (in_home home "cache") ltac:(apply NB; [reflexivity|exact H0]) ltac:(apply NB; [reflexivity|exact H0]) ltac:(apply NB; [reflexivity|exact H0]) ltac:(apply NB; [reflexivity|exact H0])) as HS.
  pose proof (main_setup_manual (in_home home "") (in_home home "StatisticTemplate.html") (in_home home "hosts.txt") (in_home home "cache")) as HM. rewrite !NC in HM by reflexivity. fold t in HM.
  set (os := main_setup _ _ _ _) in *. assert (HG : good_table t). { destruct (setups_table junk os cfg_init [] table_init HS) as (g0 & _ & _ & HG). rewrite HM in HG. exact HG. }
  assert (HP : forall name d lines, In (name, AOpt d) t -> d_type d = TPath -> Forall (fun q => fst (fst (fst q)) = None) (given t name lines)).
  { intros name d lines Hi Hd. apply Forall_forall. intros q Hq. unfold given in Hq. apply in_flat_map in Hq. destruct Hq as (line & _ & Hq). destruct (split_nv line) as [(k, v)|]; [|destruct Hq]. destruct (resolve t k) as [((m, p), ds)|] eqn:ER; [|destruct Hq]. destruct (str_eqb name m) eqn:EN; [|destruct Hq]. destruct Hq as [<-|[]]. cbn [fst]. apply str_eqb_eq in EN. subst m. apply C39_names in ER; [|exact HG]. destruct ER as [(_ & _ & -> & _)|ER]; [reflexivity|exfalso].
    assert (name = bytes "ServerGroup") as -> by (unfold t, manual, num, flag, text, path, group in ER; repeat (destruct ER as [ER|ER]; [first [discriminate ER|injection ER; intros; congruence]|]); destruct ER).
    assert (HS2 : In (bytes "ServerGroup", AOpt (mk_dopt TStr StDiscard false 0 false (map bytes ["UDP"; "1.2.4.8,114.114.114.114"; "*"; "on"]%string) [9; 32])) t) by (unfold t, manual; do 5 right; left; reflexivity).
    destruct HG as (HN & _). pose proof (in_assoc _ _ _ HN Hi) as A1. pose proof (in_assoc _ _ _ HN HS2) as A2. rewrite A1 in A2. injection A2 as ->. discriminate Hd. }
  assert (ENV : env_init junk stale expand fuel (Some (Some home)) file bs = let! g := run_setups junk cfg_init os in match bs with None => Ret (in_home home "", file_dir file, g) | Some b => let! r := config_read junk stale expand fuel g (mkf b false) 0 in Ret (in_home home "", file_dir file, snd r) end).
  { unfold env_init. change (file_in (Some (Some home)) []) with (file_in (Some (Some home)) (bytes "")). assert (L1 : length (bytes "StatisticTemplate.html") = 22%nat) by reflexivity. assert (L2 : length (bytes "hosts.txt") = 9%nat) by reflexivity. assert (L3 : length (bytes "cache") = 5%nat) by reflexivity. assert (L4 : length (bytes "") = 0%nat) by reflexivity. rewrite !file_in_ok by lia. reflexivity. }
  assert (RES : forall b fu, Forall (line_ok 2048) (file_lines b) -> end_ok b -> (length b < fu)%nat -> exists g0 n g, run_setups junk cfg_init os = Ret g0 /\ config_read junk stale expand fu g0 (mkf b false) 0 = Ret (n, g) /\
    (forall name, ~ In name (map fst t) -> config_get g name = Ret None) /\
    forall name d, In (name, AOpt d) t -> exists o, config_get g name = Ret (Some o) /\ c_type o = d_type d /\
      let gs := given t name (content b) in
      match d_type d with
      | TInt => c_int o = final_int stale (d_strat d) (d_int d) (flat_map texts gs)
      | TBool => c_bool o = final_bool (d_strat d) (d_bool d) (flat_map texts gs)
      | TStr => exists m, forall w, (m < w)%nat -> sl_walk w (c_str o) None = Ret (final_strings (d_strat d) (d_str d) (d_delims d) gs)
      | TPath => exists m, forall w, (m < w)%nat -> sl_walk w (c_str o) None = Ret (final_paths (d_strat d) (d_str d) (flat_map (paths expand) gs))
      end).
  { intros b fu B1 B2 B3. destruct (C39_values_partial junk stale expand os b fu HX HS B1 B2 B3) as (g0 & g & E0 & E1 & A1 & _ & A3). rewrite HM in *. exists g0; eexists; exists g. split; [exact E0|]. split; [exact E1|]. split.
    - intros name Hn. apply A1. unfold resolve, assoc. destruct (str_index name (map fst t)) as [i|] eqn:Ei; [|reflexivity]. exfalso. apply str_index_some in Ei. apply Hn. eapply nth_error_In, Ei.
    - intros name d Hi. destruct (A3 name d Hi) as (o & O1 & O2 & O3). exists o. split; [exact O1|]. split; [exact O2|]. cbv zeta in *. destruct (d_type d) eqn:Ed; try exact O3. apply O3. apply (HP name d _ Hi Ed). }
  destruct bs as [b|].
  - destruct HB as (B1 & B2 & B3). destruct (RES b fuel B1 B2 B3) as (g0 & n & g & E0 & E1 & A1 & A2). exists g. split; [rewrite ENV, E0; cbn [bind]; rewrite E1; reflexivity|]. split; assumption.
  - destruct (RES [] 1%nat) as (g0 & n & g & E0 & E1 & A1 & A2); [apply Forall_cons; [split; [cbn [length]; lia|split; [intros []|split; intros a b X; destruct a; discriminate X]]|apply Forall_nil]|left; reflexivity|cbn [length]; lia|].
    assert (g = g0) as -> by (cbn in E1; congruence). exists g0. split; [rewrite ENV, E0; reflexivity|]. split; [exact A1|exact A2].
Qed.
Print Assumptions C80_options_partial.

(** An option that no line of the file means has the default of the manual. *)
Theorem C80_default : forall junk stale expand home file b fuel name d, (forall x room, ~ In 0 x -> ~ In 0 (expand x room)) -> ~ In 0 home -> ~ In 44 home -> (length home + 37 < 1024)%nat ->
  Forall (line_ok 2048) (file_lines b) -> end_ok b -> (length b < fuel)%nat ->
  let t := manual [in_home home ""] [in_home home "StatisticTemplate.html"] [in_home home "hosts.txt"] [in_home home "cache"] in
  In (name, AOpt d) t -> (forall line k v, In line (content b) -> split_nv line = Some (k, v) -> k <> name /\ forall p ds, ~ In (k, AAlias name p ds) t) ->
  exists g o, env_init junk stale expand fuel (Some (Some home)) file (Some b) = Ret (in_home home "", file_dir file, g) /\ config_get g name = Ret (Some o) /\ c_type o = d_type d /\
    (d_type d = TInt -> c_int o = d_int d) /\ (d_type d = TBool -> c_bool o = d_bool d) /\ (d_type d = TStr \/ d_type d = TPath -> exists m, forall w, (m < w)%nat -> sl_walk w (c_str o) None = Ret (d_str d)).
Proof.
  intros junk stale expand home file b fuel name d HX H0 HC HL B1 B2 B3 t Hi HN. destruct (C80_options_partial junk stale expand home file (Some b) fuel HX H0 HC HL (conj B1 (conj B2 B3))) as (g & E & _ & A). fold t in A. destruct (A name d Hi) as (o & O1 & O2 & O3). exists g, o.
  assert (EG : given t name (content b) = []).
  { unfold given. assert (G : forall lines, (forall line, In line lines -> In line (content b)) -> flat_map (fun line => match split_nv line with None => [] | Some (k, v) => match resolve t k with Some (m, p, ds) => if str_eqb name m then [(p, ds, v, (2048 - (length line - length v))%nat)] else [] | None => [] end end) lines = []).
    { induction lines as [|line lines IH]; intros HI; [reflexivity|]. cbn [flat_map]. rewrite IH by (intros l Hl; apply HI; right; exact Hl). rewrite app_nil_r. destruct (split_nv line) as [(k, v)|] eqn:ES; [|reflexivity]. destruct (resolve t k) as [((m, p), ds)|] eqn:ER; [|reflexivity]. destruct (str_eqb name m) eqn:EN; [|reflexivity]. exfalso. apply str_eqb_eq in EN. subst m.
      destruct (HN line k v (HI line (or_introl eq_refl)) ES) as (N1 & N2). unfold resolve in ER. destruct (assoc t k) as [[e|tg q r]|] eqn:EA; [injection ER as -> <- <-; contradiction|injection ER as -> -> ->|discriminate]. apply assoc_in in EA. exact (N2 _ _ EA). }
    apply G. auto. }
  split; [exact E|]. split; [exact O1|]. split; [exact O2|]. cbv zeta in O3. rewrite EG in O3. cbn [flat_map] in O3. split; [|split].
  - intros Hd. rewrite Hd in O3. rewrite O3. destruct (d_strat d); reflexivity.
  - intros Hd. rewrite Hd in O3. rewrite O3. destruct (d_strat d); cbn [final_bool map last existsb]; rewrite ?orb_false_r; reflexivity.
  - intros [Hd|Hd]; rewrite Hd in O3; exact O3.
Qed.
Print Assumptions C80_default.

Definition serves (s : step) : bool := match s with ServeUdp | ServeTcp => true | _ => false end.
Lemma start_order pre post : forallb (fun s => negb (serves s)) pre = true -> (In LoadModules pre /\ In BindUdp pre /\ In BindTcp pre) \/ post = [] ->
  forall a b s, pre ++ post = a ++ s :: b -> s = ServeUdp \/ s = ServeTcp -> In LoadModules a /\ In BindUdp a /\ In BindTcp a.
Proof.
  intros HF HP a b s E HS. rewrite forallb_forall in HF. assert (NS : ~ In s pre) by (intros X; specialize (HF s X); destruct HS as [->| ->]; discriminate HF).
  destruct HP as [HP| ->]; [|exfalso; rewrite app_nil_r in E; apply NS; rewrite E; apply in_or_app; right; left; reflexivity].
  assert (EX : exists c, a = pre ++ c). { clear -E NS. revert a E. induction pre as [|x pre IH]; intros a E; [exists a; reflexivity|]. destruct a as [|y a]; cbn [app] in E; injection E as -> E; [exfalso; apply NS; left; reflexivity|]. destruct (IH ltac:(intros X; apply NS; right; exact X) a E) as (c & ->). exists c. reflexivity. }
  destruct EX as (c & ->). destruct HP as (A & B & C). repeat split; apply in_or_app; left; assumption.
Qed.
Lemma in_flat {A} (x : A) l : In x l <-> fold_right (fun y P => y = x \/ P) False l.
Proof. induction l; cbn [In fold_right]; tauto. Qed.
(** What is started: queries are served only behind the loading of everything, by exactly the front ends that got their sockets, and only if every part is there; otherwise the program ends with the number of the first part that failed. Messages are shown exactly when neither -q was given nor the program went to the background. *)
Theorem C80_start : forall f p, let (steps, code) := main_run f p in
  (code = 0 <-> p_log p = 0 /\ p_task p = 0 /\ p_stat p = 0 /\ (p_udp p = 0 \/ p_tcp p = 0) /\ p_mod p = 0) /\
  (In ServeUdp steps <-> code = 0 /\ p_udp p = 0) /\ (In ServeTcp steps <-> code = 0 /\ p_tcp p = 0) /\
  (forall a b s, steps = a ++ s :: b -> s = ServeUdp \/ s = ServeTcp -> In LoadModules a /\ In BindUdp a /\ In BindTcp a) /\
  (In LoadModules steps <-> p_log p = 0 /\ p_task p = 0 /\ p_stat p = 0 /\ (p_udp p = 0 \/ p_tcp p = 0)) /\
  (forall s d, In (OpenLog s d) steps <-> d = fl_debug f /\ (s = true <-> fl_show f = true /\ ~ (fl_daemon f = true /\ p_daemon p = 0))).
Proof.
  intros f p. destruct f as [fi da sh de], p as [pd pl pt ps pu pc pm]. unfold main_run. cbn [fl_daemon fl_show fl_debug p_daemon p_log p_task p_stat p_udp p_tcp p_mod].
  set (show := sh && negb (da && (pd =? 0))). assert (HS : show = true <-> sh = true /\ ~ (da = true /\ pd = 0)) by (unfold show; destruct sh, da, (Z.eqb_spec pd 0); cbn [andb negb]; intuition congruence). clearbody show.
  assert (HL : forall s d pre post, (forall s d, ~ In (OpenLog s d) pre) -> (forall s d, ~ In (OpenLog s d) post) -> (In (OpenLog s d) (pre ++ OpenLog show de :: post) <-> d = de /\ (s = true <-> sh = true /\ ~ (da = true /\ pd = 0)))).
  { intros s d pre post H1 H2. split; [intros X; apply in_app_or in X; destruct X as [X|[X|X]]; [destruct (H1 _ _ X)|injection X as <- <-; auto|destruct (H2 _ _ X)]|intros (-> & X); apply in_or_app; right; left]. f_equal. destruct s, show; intuition congruence. }
  set (det := if da then [Detach] else []). assert (D1 : forall s, In s det -> s = Detach) by (unfold det; destruct da; [intros s [<-|[]]; reflexivity|intros s []]). assert (D2 : forallb (fun s => negb (serves s)) det = true) by (unfold det; destruct da; reflexivity). clearbody det.
  assert (NOT : forall s post, s <> Detach -> (In s ((det ++ [OpenLog show de]) ++ post) <-> s = OpenLog show de \/ In s post)).
  { intros s post Hs. rewrite !in_app_iff. cbn [In]. split; [intros [[X|[X|[]]]|X]; [apply D1 in X; contradiction|left; congruence|right; exact X]|intros [X|X]; [left; right; left; congruence|right; exact X]]. }
  assert (FIN : forall post code, forallb (fun s => match s with OpenLog _ _ => false | _ => true end) post = true -> 
    (code = 0 <-> pl = 0 /\ pt = 0 /\ ps = 0 /\ (pu = 0 \/ pc = 0) /\ pm = 0) -> (In ServeUdp post <-> code = 0 /\ pu = 0) -> (In ServeTcp post <-> code = 0 /\ pc = 0) -> (In LoadModules post <-> pl = 0 /\ pt = 0 /\ ps = 0 /\ (pu = 0 \/ pc = 0)) ->
    (exists x y, post = x ++ y /\ forallb (fun s => negb (serves s)) x = true /\ ((In LoadModules x /\ In BindUdp x /\ In BindTcp x) \/ y = [])) ->
    let (steps, code) := ((det ++ [OpenLog show de]) ++ post, code) in
    (code = 0 <-> pl = 0 /\ pt = 0 /\ ps = 0 /\ (pu = 0 \/ pc = 0) /\ pm = 0) /\ (In ServeUdp steps <-> code = 0 /\ pu = 0) /\ (In ServeTcp steps <-> code = 0 /\ pc = 0) /\
    (forall a b s, steps = a ++ s :: b -> s = ServeUdp \/ s = ServeTcp -> In LoadModules a /\ In BindUdp a /\ In BindTcp a) /\
    (In LoadModules steps <-> pl = 0 /\ pt = 0 /\ ps = 0 /\ (pu = 0 \/ pc = 0)) /\ (forall s d, In (OpenLog s d) steps <-> d = de /\ (s = true <-> sh = true /\ ~ (da = true /\ pd = 0)))).
  { intros post code HO H1 H2 H3 H4 (x & y & -> & X1 & X2). split; [exact H1|]. split; [rewrite NOT by discriminate; rewrite <- H2; split; [intros [X|X]; [discriminate X|exact X]|auto]|]. split; [rewrite NOT by discriminate; rewrite <- H3; split; [intros [X|X]; [discriminate X|exact X]|auto]|].
    split; [rewrite app_assoc; apply start_order; [rewrite !forallb_app, D2, X1; reflexivity|destruct X2 as [(A & B & C)|X2]; [left; repeat split; apply in_or_app; right; assumption|right; exact X2]]|].
    split; [rewrite NOT by discriminate; rewrite <- H4; split; [intros [X|X]; [discriminate X|exact X]|auto]|]. intros s d. rewrite <- app_assoc. cbn [app]. apply HL; [intros s0 d0 X; apply D1 in X; discriminate X|]. rewrite forallb_forall in HO. intros s0 d0 X. specialize (HO _ X). discriminate HO. }
  assert (IN : forall (s : step) l, In s l <-> fold_right (fun y P => y = s \/ P) False l) by (intros; apply in_flat).
  assert (FIN2 : forall l x y code, l = (det ++ [OpenLog show de]) ++ x ++ y -> forallb (fun s => match s with OpenLog _ _ => false | _ => true end) (x ++ y) = true -> 
    (code = 0 <-> pl = 0 /\ pt = 0 /\ ps = 0 /\ (pu = 0 \/ pc = 0) /\ pm = 0) -> (In ServeUdp (x ++ y) <-> code = 0 /\ pu = 0) -> (In ServeTcp (x ++ y) <-> code = 0 /\ pc = 0) -> (In LoadModules (x ++ y) <-> pl = 0 /\ pt = 0 /\ ps = 0 /\ (pu = 0 \/ pc = 0)) ->
    forallb (fun s => negb (serves s)) x = true -> ((In LoadModules x /\ In BindUdp x /\ In BindTcp x) \/ y = []) ->
    let (steps, code) := (l, code) in
    (code = 0 <-> pl = 0 /\ pt = 0 /\ ps = 0 /\ (pu = 0 \/ pc = 0) /\ pm = 0) /\ (In ServeUdp steps <-> code = 0 /\ pu = 0) /\ (In ServeTcp steps <-> code = 0 /\ pc = 0) /\
    (forall a b s, steps = a ++ s :: b -> s = ServeUdp \/ s = ServeTcp -> In LoadModules a /\ In BindUdp a /\ In BindTcp a) /\
    (In LoadModules steps <-> pl = 0 /\ pt = 0 /\ ps = 0 /\ (pu = 0 \/ pc = 0)) /\ (forall s d, In (OpenLog s d) steps <-> d = de /\ (s = true <-> sh = true /\ ~ (da = true /\ pd = 0)))).
  { intros l x y code -> A1 A2 A3 A4 A5 A6 A7. apply (FIN (x ++ y) code A1 A2 A3 A4 A5). exists x, y. auto. }
  clear FIN NOT HL D1 D2 HS.
  destruct (Z.eqb_spec pl 0) as [L|L]; cbn [negb]; [|apply (FIN2 _ [] []); [rewrite <- ?app_assoc; reflexivity|reflexivity|lia|cbn [app In]; intuition (discriminate || lia)|cbn [app In]; intuition (discriminate || lia)|cbn [app In]; intuition (discriminate || lia)|reflexivity|auto]].
  destruct (Z.eqb_spec pt 0) as [T|T]; cbn [negb]; [|apply (FIN2 _ [StartTimer] []); [rewrite <- ?app_assoc; reflexivity|reflexivity|lia|cbn [app In]; intuition (discriminate || lia)|cbn [app In]; intuition (discriminate || lia)|cbn [app In]; intuition (discriminate || lia)|reflexivity|auto]].
  destruct (Z.eqb_spec ps 0) as [S|S]; cbn [negb]; [|apply (FIN2 _ [StartTimer; OpenStatistic] []); [rewrite <- ?app_assoc; reflexivity|reflexivity|lia|cbn [app In]; intuition (discriminate || lia)|cbn [app In]; intuition (discriminate || lia)|cbn [app In]; intuition (discriminate || lia)|reflexivity|auto]].
  destruct (Z.eqb_spec pu 0) as [U|U], (Z.eqb_spec pc 0) as [C|C]; cbn [negb andb].
  4: apply (FIN2 _ [StartTimer; OpenStatistic; BindUdp; BindTcp] []); [rewrite <- ?app_assoc; reflexivity|reflexivity|lia|cbn [app In]; intuition (discriminate || lia)|cbn [app In]; intuition (discriminate || lia)|cbn [app In]; intuition (discriminate || lia)|reflexivity|auto].
  all: destruct (Z.eqb_spec pm 0) as [M|M]; cbn [negb].
  all: eapply (FIN2 _ [StartTimer; OpenStatistic; BindUdp; BindTcp; LoadModules] _); [rewrite <- ?app_assoc; cbn [app]; reflexivity|reflexivity|lia|cbn [app In]; intuition (discriminate || lia)|cbn [app In]; intuition (discriminate || lia)|cbn [app In]; intuition (discriminate || lia)|reflexivity|left; cbn [In]; tauto].
Qed.
Print Assumptions C80_start.

(** The claim that the program starts whatever the home directory is, is false: a name of 299 bytes or more overruns the 320 bytes for the default configuration file, whatever is in the environment. *)
Theorem C80_home_refuted : forall home, (299 <= length home)%nat -> default_config (Some (Some home)) = UBW.
Proof.
  intros home H. unfold default_config, config_dir, cat_to. assert (L : length (home ++ bytes "/.dnsforwarder") = (length home + 14)%nat) by (rewrite app_length; reflexivity). rewrite L. destruct (Nat.ltb_spec 320 (length home + 14 + 1)); [reflexivity|]. cbn [bind]. rewrite app_length, L. change (length (bytes "/config")) with 7%nat. destruct (Nat.ltb_spec 320 (length home + 14 + 7 + 1)); [reflexivity|lia].
Qed.
Print Assumptions C80_home_refuted.
(** A user without an entry in the user database cannot start it, even with -f: NULL is read. *)
Theorem C80_user_refuted : forall junk stale expand fuel file bs, default_config None = UBR /\ env_init junk stale expand fuel None file bs = UBR.
Proof. intros. split; reflexivity. Qed.
Print Assumptions C80_user_refuted.
(** With a comma in the name of the home directory the default files are not in it: the name is cut at the comma. *)
Theorem C80_comma_refuted : exists home g o, ~ In 0 home /\ env_init (fun _ => 1) 0 (fun x _ => x) 5 (Some (Some home)) (bytes "c") None = Ret (in_home home "", [46; 47], g) /\
  config_get g (bytes "HostsDownloadPath") = Ret (Some o) /\ sl_walk 4 (c_str o) None = Ret [bytes "/a"; bytes "b/.dnsforwarder/hosts.txt"].
Proof.
  exists (bytes "/a,b"). assert (E : match env_init (fun _ => 1) 0 (fun x _ => x) 5 (Some (Some (bytes "/a,b"))) (bytes "c") None with Ret (d, e, g) => match config_get g (bytes "HostsDownloadPath") with Ret (Some o) => (str_eqb d (in_home (bytes "/a,b") "") && str_eqb e [46; 47])%bool = true /\ sl_walk 4 (c_str o) None = Ret [bytes "/a"; bytes "b/.dnsforwarder/hosts.txt"] | _ => False end | _ => False end) by (vm_compute; auto).
  destruct (env_init _ _ _ _ _ _ _) as [((d, e), g)| | |]; try destruct E. destruct (config_get g (bytes "HostsDownloadPath")) as [[o|]| | |] eqn:EC; try destruct E. exists g, o. apply andb_prop in H. destruct H as (H1 & H2). apply str_eqb_eq in H1, H2. subst d e.
  split; [apply nonulb_ok; reflexivity|]. split; [reflexivity|]. split; [exact EC|]. assumption.
Qed.
Print Assumptions C80_comma_refuted.

(** A command line; an empty home directory "/r" with a file that sets one option. *)
Example C80_nonvacuous :
  Forall item_ok [IDebug; IFile (bytes "a"); IOther (bytes "x"); IQuiet; IFile (bytes "/b/c")] /\
  arg_parse (map bytes ["-D"; "-f"; "a"; "x"; "-q"; "-f"; "/b/c"]%string) flags0 [] = Ret (Parsed (mk_flags (Some (bytes "/b/c")) false false true) [bytes "x"]) /\
  arg_parse (map bytes ["-q"; "-f"]%string) flags0 [] = UBR /\ file_dir (bytes "/b/c") = bytes "/b/" /\
  main_run (mk_flags None true true false) (mk_parts 0 0 0 0 0 (-1) 0) = ([Detach; OpenLog false false; StartTimer; OpenStatistic; BindUdp; BindTcp; LoadModules; ServeUdp], 0) /\
  (let b := bytes "CacheSize 7" ++ [10] in Forall (line_ok 2048) (file_lines b) /\ end_ok b /\ content b = [bytes "CacheSize 7"] /\
   (let! r := env_init (fun _ => 1) 0 (fun x _ => x) 50 (Some (Some (bytes "/r"))) (bytes "/b/c") (Some b) in
    let! c := config_get (snd r) (bytes "CacheSize") in let! m := config_get (snd r) (bytes "MultipleTTL") in let! h := config_get (snd r) (bytes "HostsDownloadPath") in
    let! s := config_get (snd r) (bytes "UDPGroup") in let! n := config_get (snd r) (bytes "Nothing") in
    match c, m, h, s, n with
    | Some c, Some m, Some h, Some s, None => let! x := sl_walk 9 (c_str h) None in let! y := sl_walk 9 (c_str s) None in Ret (fst r, c_int c, c_int m, x, y)
    | _, _, _, _, _ => UBR
    end) = Ret ((bytes "/r/.dnsforwarder/", bytes "/b/"), 7, 1, [bytes "/r/.dnsforwarder/hosts.txt"], map bytes ["UDP"; "1.2.4.8,114.114.114.114"; "*"; "on"]%string)).
Proof.
  split; [repeat (apply Forall_cons; [cbn [item_ok]; first [exact I|intros X; cbv in X; repeat (destruct X as [X|X]; [discriminate X|]); exact X]|]); apply Forall_nil|].
  split; [vm_compute; reflexivity|]. split; [vm_compute; reflexivity|]. split; [vm_compute; reflexivity|]. split; [vm_compute; reflexivity|]. cbv zeta. split; [|split; [left; vm_compute; reflexivity|split; vm_compute; reflexivity]].
  assert (HL : forall l, ((List.length l + 2 <=? 2048)%nat && nonulb l && negb (existsb (Z.eqb 59) l) && negb (existsb (Z.eqb 13) l))%bool = true -> line_ok 2048 l).
  { intros l H. apply andb_prop in H. destruct H as (H & H4). apply andb_prop in H. destruct H as (H & H3). apply andb_prop in H. destruct H as (H1 & H2). apply Nat.leb_le in H1. apply nonulb_ok in H2. apply negb_true_iff in H3, H4.
    assert (HN : forall c, existsb (Z.eqb c) l = false -> forall a b, l <> (a ++ c :: b)%list) by (intros c Hc a b E; assert (existsb (Z.eqb c) l = true) by (apply existsb_exists; exists c; split; [rewrite E; apply in_or_app; right; left; reflexivity|apply Z.eqb_refl]); congruence).
    split; [exact H1|]. split; [exact H2|]. split; [intros a b E; destruct (HN 59 H3 a b E)|intros a b E; destruct (HN 13 H4 a b E)]. }
  apply Forall_forall. intros l Hl. apply HL. assert (HB : forallb (fun l => ((List.length l + 2 <=? 2048)%nat && nonulb l && negb (existsb (Z.eqb 59) l) && negb (existsb (Z.eqb 13) l))%bool) (file_lines (bytes "CacheSize 7" ++ [10])) = true) by (vm_compute; reflexivity). rewrite forallb_forall in HB. apply HB, Hl.
Qed.
