(** C39: what the functions that hand out values give after a file was read. *)
From Verif Require Import Hosts_Model Base BaseFacts Hash_Model Sht_Model Chunk_Spec Chunk_Proofs Chunk_Proofs Arr_Model Addr_Model Chunk_Model Slist_Model Slist_Proofs Line_Model Line_Props Config_Model Config_Proofs Config_Props Longval_Props Getter_Model.
Require Import ZifyBool ZifyNat.
Import List ListNotations.
Open Scope list_scope.
Open Scope Z_scope.

(** * Specification *)
(** The list a string or path option ends with. *)
Definition final_list (expand : list Z -> nat -> list Z) (d : dopt) (gs : list (option (list Z) * option (list Z) * list Z * nat)) : list (list Z) :=
  match d_type d with TPath => final_paths (d_strat d) (d_str d) (flat_map (paths expand) gs) | _ => final_strings (d_strat d) (d_str d) (d_delims d) gs end.
(** Values of path options are not given through aliases that prepend something. *)
Definition paths_plain (t : atable) : Prop := forall n tg p ds d, In (n, AAlias tg p ds) t -> In (tg, AOpt d) t -> d_type d = TPath -> p = None.

(** * Proofs *)
Lemma first_of_walk w s l : sl_walk (S w) s None = Ret l -> first_string s = Ret (hd_error l).
Proof.
  cbn [sl_walk]. unfold first_string. destruct (sl_next s None) as [[(b, o)|]| | |]; cbn [bind]; try discriminate; [|intros [= <-]; reflexivity].
  destruct (str_at s b o) as [x| | |]; cbn [bind]; try discriminate. destruct (sl_walk w s (Some (b, o))) as [r| | |]; cbn [bind]; try discriminate. intros [= <-]. reflexivity.
Qed.
(** The value of every name, whether option or alias or neither: ConfigGetRawString gives the first string of the list, not the last; a list without strings is NULL. *)
Theorem C39_getters_partial junk stale expand os bs fuel : (forall x room, ~ In 0 x -> ~ In 0 (expand x room)) -> setups_ok [] os -> let t := fold_left spec_setup os [] in
  clean_table t -> paths_plain t -> readable t bs -> (length bs < fuel)%nat ->
  exists g0 n g, run_setups junk cfg_init os = Ret g0 /\ config_read junk stale expand fuel g0 (mkf bs false) 0 = Ret (n, g) /\
    forall name, match resolve t name with
    | None => config_raw g name = Ret None /\ (forall w, config_count w g name = Ret 0 /\ config_list w g name = Ret None) /\ config_int g name = Ret 0 /\ config_bool g name = Ret false
    | Some (m, _, _) => exists d, In (m, AOpt d) t /\ let gs := given t m (content bs) in
      match d_type d with
      | TInt => config_int g name = Ret (final_int stale (d_strat d) (d_int d) (flat_map texts gs))
      | TBool => config_bool g name = Ret (final_bool (d_strat d) (d_bool d) (flat_map texts gs))
      | _ => let l := final_list expand d gs in config_raw g name = Ret (hd_error l) /\
             exists k, forall w, (k < w)%nat -> config_count w g name = Ret (Z.of_nat (length l)) /\ config_list w g name = Ret (match l with [] => None | _ => Some l end)
      end
    end.
Proof.
  intros HX HS t HC HP HR Hf. destruct (C39_long_values_partial junk stale expand os bs fuel HX HS HC HR Hf) as (g0 & g & E0 & E1 & HN & HA & HV). fold t in HN, HA, HV. exists g0. eexists. exists g. split; [exact E0|]. split; [exact E1|]. intros name.
  assert (HG : good_table t) by (destruct (setups_table junk os cfg_init [] table_init HS) as (_ & _ & _ & X); exact X).
  destruct (resolve t name) as [((m, p), ds)|] eqn:Er.
  - assert (HM : exists d, In (m, AOpt d) t). { apply C39_names in Er; [|exact HG]. destruct Er as [(Hd & -> & _)|Hi]; [exact Hd|]. destruct HG as (_ & _ & G & _). exact (G _ _ _ _ Hi). }
    destruct HM as (d & Hd). exists d. split; [exact Hd|]. cbv zeta. destruct (HV m d Hd) as (o & Eo & Et & HO). cbv zeta in HO. unfold config_raw, config_count, config_list, config_int, config_bool. rewrite (HA _ _ _ _ Er), Eo. cbn [bind]. rewrite Et. unfold final_list.
    assert (HW : forall l, (exists k, forall w, (k < w)%nat -> sl_walk w (c_str o) None = Ret l) -> first_string (c_str o) = Ret (hd_error l) /\
      exists k, forall w, (k < w)%nat -> (let! l0 := sl_walk w (c_str o) None in Ret (Z.of_nat (length l0))) = Ret (Z.of_nat (length l)) /\ (let! l0 := sl_walk w (c_str o) None in Ret (match l0 with [] => None | _ => Some l0 end)) = Ret (match l with [] => None | _ => Some l end)).
    { intros l (k & Hk). split; [apply (first_of_walk k), Hk; lia|]. exists k. intros w Hw. rewrite (Hk w Hw). auto. }
    destruct (d_type d) eqn:Ed; [rewrite HO; reflexivity|rewrite HO; reflexivity| |apply HW, HO].
    apply HW, HO. apply Forall_forall. intros q Hq. unfold given in Hq. apply in_flat_map in Hq. destruct Hq as (line & _ & Hq). destruct (split_nv line) as [(k, v)|]; [|destruct Hq]. destruct (resolve t k) as [((m', p'), ds')|] eqn:Ek; [|destruct Hq]. destruct (str_eqb m m') eqn:Em; [|destruct Hq]. destruct Hq as [<-|[]]. cbn [fst].
    apply str_eqb_eq in Em. subst m'. apply C39_names in Ek; [|exact HG]. destruct Ek as [(_ & _ & -> & _)|Hi]; [reflexivity|]. apply (HP _ _ _ _ _ Hi Hd Ed).
  - unfold config_raw, config_count, config_list, config_int, config_bool. rewrite (HN _ Er). cbn [bind]. auto.
Qed.
Print Assumptions C39_getters_partial.
(** The settings and the file of C39_nonvacuous: "UDPLocal" was given as "1.1.1.1:5, ,[::1]:5" and "2.2.2.2:5". *)
Require Import Ascii String.
Import List ListNotations.
Open Scope list_scope.
Open Scope Z_scope.
Example C39_getters_nonvacuous : clean_table lv_table /\ paths_plain lv_table /\
  match run_setups (fun _ => 1) cfg_init ex_setup with
  | Ret g0 => match config_read (fun _ => 1) 5 (fun x _ => x) 3000 g0 (mkf ex_file false) 0 with
              | Ret (_, g) => config_raw g (bytes "UDPLocal"%string) = Ret (Some (bytes "1.1.1.1:5"%string)) /\ config_count 20 g (bytes "UDPLocal"%string) = Ret 3 /\ config_bool g (bytes "LogOn"%string) = Ret true /\
                  config_raw g (bytes "Nothing"%string) = Ret None /\ config_raw g (bytes "UDPGroup"%string) = Ret (Some (bytes "UDP"%string))
              | _ => False end
  | _ => False end.
Proof.
  split; [exact (proj1 C39_long_values_nonvacuous)|]. split.
  - intros n tg p ds d Ha Ho Ht. assert (HB : forallb (fun x : list Z * aentry => match snd x with AAlias tg (Some p) ds => forallb (fun y : list Z * aentry => match snd y with AOpt d => negb (str_eqb (fst y) tg) || match d_type d with TPath => false | _ => true end | _ => true end) lv_table | _ => true end) lv_table = true) by (vm_compute; reflexivity).
    destruct p as [p|]; [|reflexivity]. rewrite forallb_forall in HB. specialize (HB _ Ha). cbn [snd] in HB. rewrite forallb_forall in HB. specialize (HB _ Ho). cbn [snd fst] in HB. rewrite Ht in HB. rewrite (proj2 (str_eqb_eq tg tg) eq_refl) in HB. discriminate.
  - vm_compute. repeat split; reflexivity.
Qed.
