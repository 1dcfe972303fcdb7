(** Property theorems about domain names: C01 - C05. *)
From Verif Require Import Base BaseFacts Name_Model Name_Spec Name_Proofs.

(** ** C01 Domain names survive the trip to the wire and back *)
Theorem C01_name_round_trip : forall ls pre post buf,
  Forall (good_label 63) ls ->
  (text_space ls <= length buf)%nat ->
  exists w, labelize (dotted ls) (length (dotted ls) + 2) = Some w /\
  exists f0, forall fuel, (f0 <= fuel)%nat ->
    get_host_name fuel (length (pre ++ w ++ post)) (pre ++ w ++ post) (length pre) buf
    = Ret (Some (length w), Some (dotted ls ++ 0 :: skipn (text_space ls) buf)).
Proof.
  intros ls pre post buf HF Hb. exists (wire ls). split.
  - apply (labelize_wire 63); auto; [lia|].
    destruct ls; [simpl; lia|]. rewrite wire_length by discriminate. lia.
  - destruct (get_host_name_complete 63 _ _ _ _ ltac:(lia) (denotes_wire 63 ls pre post HF)) as [f0 H].
    exists f0. intros fuel Hf. now apply H.
Qed.
Print Assumptions C01_name_round_trip.

(** The written form is the RFC 1035 one, and too small a space is refused. *)
Theorem C01_written_form : forall ls space,
  Forall (good_label 63) ls ->
  labelize (dotted ls) space =
  (if orb (match ls with [] => true | _ => false end) (Nat.leb (length (wire ls)) space)
   then Some (wire ls) else None).
Proof.
  intros ls space HF. destruct ls as [|l ls]; [reflexivity|]. cbn [orb].
  destruct (Nat.leb_spec (length (wire (l :: ls))) space) as [H|H].
  - apply (labelize_wire 63); auto. lia.
  - apply labelize_small.
    + intros E. inversion HF as [|? ? [Hl _] _]; subst. destruct ls; simpl in E.
      * subst l. simpl in Hl. lia.
      * destruct l; simpl in *; [lia|discriminate].
    + rewrite wire_length in H by discriminate. lia.
Qed.
Print Assumptions C01_written_form.

(** "www.example.com" *)
Definition ex_labels : list (list Z) :=
  [[119;119;119]; [101;120;97;109;112;108;101]; [99;111;109]].
Example C01_nonvacuous : Forall (good_label 63) ex_labels /\ (text_space ex_labels <= 253)%nat /\
  labelize (dotted ex_labels) 17 =
  Some [3;119;119;119;7;101;120;97;109;112;108;101;3;99;111;109;0].
Proof.
  split; [|split; [vm_compute; lia|reflexivity]].
  unfold ex_labels, good_label. repeat constructor; simpl; try lia.
Qed.

(** ** C02 Compressed names expand to the name they denote *)
Theorem C02_name_read_is_rfc1035_decoding : forall m o ls w,
  denotes 63 m o ls w ->
  exists f0, forall fuel buf, (f0 <= fuel)%nat -> (text_space ls <= length buf)%nat ->
    get_host_name fuel (length m) m o buf
    = Ret (Some w, Some (dotted ls ++ 0 :: skipn (text_space ls) buf)).
Proof. intros m o ls w H. exact (get_host_name_complete 63 m o ls w ltac:(lia) H). Qed.
Print Assumptions C02_name_read_is_rfc1035_decoding.

(** Converse: whatever is returned is the decoding (labels up to 191 bytes are accepted by the
    code, RFC 1035 has 63), for any declared packet length not beyond the memory. *)
Theorem C02_name_read_sound : forall fuel dlen m o buf r buf',
  (dlen <= length m)%nat -> Forall is_byte m ->
  get_host_name fuel dlen m o buf = Ret (Some r, Some buf') ->
  exists ls, denotes 191 m o ls r /\ (text_space ls <= length buf)%nat /\
             buf' = dotted ls ++ 0 :: skipn (text_space ls) buf.
Proof. exact get_host_name_sound. Qed.
Print Assumptions C02_name_read_sound.

(** The decoding relation is a function, so the two theorems pin the result down. *)
Theorem C02_decoding_unique : forall m o ls w ls' w',
  denotes 191 m o ls w -> denotes 191 m o ls' w' -> ls = ls' /\ w = w'.
Proof. intros. eapply (denotes_fun 191); eauto. Qed.
Print Assumptions C02_decoding_unique.

(** Jumping over a name: exactly its extent, and it always comes to an end. *)
Theorem C02_jump_over_name : forall fuel m o n,
  Forall is_byte m -> (length m < fuel + o)%nat ->
  (jump_over_name fuel m o = Ret n <-> exists w, extent m o w /\ n = (o + w)%nat).
Proof.
  intros fuel m o n HF Hf. unfold jump_over_name. split.
  - destruct (name_loop fuel false 0 m o None 0 0 false) as [r| | |] eqn:E; try discriminate.
    cbn [bind]. apply jump_loop_sound in E; auto. destruct E as (w & HE & ->).
    intros H. inversion H. exists w. split; auto.
  - intros (w & HE & ->). rewrite (jump_loop_complete m o w HE) by exact Hf. reflexivity.
Qed.
Print Assumptions C02_jump_over_name.

(** A packet with a pointer to a name that itself ends in a pointer: "a.b" at 16. *)
Definition ex_packet : list Z :=
  [0;0;0;0;0;0;0;0;0;0;0;0; 1;98;0; 99; 1;97;192;12; 192;16].
Example C02_nonvacuous : denotes 63 ex_packet 20 [[97];[98]] 2 /\
  get_host_name 10 (length ex_packet) ex_packet 20 (repeat 7 6)
  = Ret (Some 2%nat, Some [97;46;98;0;7;7]).
Proof.
  split; [|reflexivity].
  eapply D_ptr; try reflexivity; try lia.
  change (Z.to_nat ((192 - 192) * 256 + 16)) with 16%nat.
  eapply D_label with (n := 1%nat); try reflexivity; try lia.
  eapply D_ptr; try reflexivity; try lia.
  change (Z.to_nat ((192 - 192) * 256 + 12)) with 12%nat.
  eapply D_label with (n := 1%nat); try reflexivity; try lia.
  eapply D_root. reflexivity.
Qed.

(** ** C03 Reading a name never writes outside the caller's buffer *)
Theorem C03_name_read_stays_in_buffer : forall fuel dlen m start buf,
  get_host_name fuel dlen m start buf <> UBW /\
  (forall r ob, get_host_name fuel dlen m start buf = Ret (r, ob) ->
     exists buf', ob = Some buf' /\ length buf' = length buf /\ (r <> None -> In 0 buf')).
Proof.
  intros fuel dlen m start buf.
  pose proof (name_loop_safe fuel true dlen m start buf 0 0 false (Nat.le_0_l _)) as H.
  unfold get_host_name. destruct (name_loop fuel true dlen m start (Some buf) 0 0 false) as [[r ob]| | |];
    split; try discriminate; try contradiction.
  intros r' ob' E. inversion E; subst. exact H.
Qed.
Print Assumptions C03_name_read_stays_in_buffer.

Example C03_nonvacuous :
  get_host_name 10 (length ex_packet) ex_packet 20 [7;7;7] = Ret (None, Some [97;0;7]).
Proof. reflexivity. Qed.

(** ** C04 Reading a name terminates on every packet: false, a name pointing at itself loops. *)
Theorem C04_name_read_terminates_refuted : exists m start buf,
  Forall is_byte m /\ (start < length m)%nat /\
  forall fuel, get_host_name fuel (length m) m start buf = Fuel.
Proof.
  exists (repeat 0 12 ++ [192; 12]), 12%nat, (repeat 0 253).
  split; [repeat constructor; unfold is_byte; lia|]. split; [simpl; lia|].
  intros fuel. eapply self_pointer_loops; try reflexivity; simpl; lia.
Qed.
Print Assumptions C04_name_read_terminates_refuted.

(** What holds: it terminates, within a stated number of iterations, when no pointer leads to a pointer
    that is not before it (in particular when all pointers point backwards). *)
Theorem C04_name_read_terminates_partial : forall m dlen start buf,
  Forall is_byte m ->
  (forall p hi lo hi2, nth_error m p = Some hi -> nth_error m (S p) = Some lo -> 192 <= hi ->
     nth_error m (Z.to_nat (lo + (hi - 192) * 256)) = Some hi2 -> 192 <= hi2 ->
     (Z.to_nat (lo + (hi - 192) * 256) < p)%nat) ->
  get_host_name (S (length buf) * (length m + 2)) dlen m start buf <> Fuel.
Proof.
  intros m dlen start buf HF HC. apply get_host_name_terminates; auto.
Qed.
Print Assumptions C04_name_read_terminates_partial.

(** Jumping over a name (no pointer is followed) always terminates. *)
Theorem C04_jump_terminates : forall m start,
  Forall is_byte m -> jump_over_name (S (length m)) m start <> Fuel.
Proof.
  intros m start HF. unfold jump_over_name.
  pose proof (jump_loop_terminates m HF (S (length m)) start 0) as H.
  destruct (name_loop (S (length m)) false 0 m start None 0 0 false) as [[[|] ?]| | |]; try discriminate.
  exfalso. apply H; [lia|lia|reflexivity].
Qed.
Print Assumptions C04_jump_terminates.

Example C04_nonvacuous :
  get_host_name (S 6 * (length ex_packet + 2)) 22 ex_packet 20 (repeat 7 6)
  = Ret (Some 2%nat, Some [97;46;98;0;7;7]).
Proof. reflexivity. Qed.

(** ** C05 Reading a name never reads outside the packet: false, also with two bytes of slack. *)
Theorem C05_name_read_inside_packet_refuted : exists m dlen start buf fuel,
  Forall is_byte m /\ (start < dlen)%nat /\ length m = (dlen + 2)%nat /\
  get_host_name fuel dlen m start buf = UBR.
Proof.
  exists [0;0;0;0;0;0;0;0;0;0;0;0; 1; 7; 192], 13%nat, 12%nat, (repeat 0 253), 5%nat.
  split; [repeat constructor; unfold is_byte; lia|]. split; [lia|]. split; reflexivity.
Qed.
Print Assumptions C05_name_read_inside_packet_refuted.

(** What holds: at most the three bytes following the packet are read. *)
Theorem C05_name_read_three_bytes_partial : forall fuel dlen m start buf,
  (dlen + 3 <= length m)%nat -> Forall is_byte m -> (start <= dlen)%nat ->
  get_host_name fuel dlen m start buf <> UBR.
Proof. intros. apply name_loop_reads; auto; lia. Qed.
Print Assumptions C05_name_read_three_bytes_partial.

Example C05_nonvacuous :
  get_host_name 5 13 [0;0;0;0;0;0;0;0;0;0;0;0; 1; 7; 192; 14] 12 (repeat 0 4) = Ret (None, Some [7; 46; 0; 0]).
Proof. reflexivity. Qed.
