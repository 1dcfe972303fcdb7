(** Model of the log (logs.c 1-180).

    The files: number 0 is the log file itself ("dnsforwarder.log" in the folder LogFileFolder), number n the file with ".n" behind its name.  Nothing else
    changes them while the program runs.  Writes to an open file succeed.  A message is the text that fprintf and vfprintf write (188-279 and the macros of
    logs.h 20-24 only fill in the format); the date is the text of GetCurDateAndTime (utils.c 157-172).  Whether rename (118) and fopen (123) succeed is given with each
    message.  The lock (150, 176) makes a call of Log_Print one step. *)
From Verif Require Import Base Addr_Model.

(** A file: its bytes and whether the program may read and write it. logs.c 51-68, utils.c 655-666. *)
Record lfile := mk_lfile { lf_bytes : list Z; lf_read : bool; lf_write : bool }.
(** LogFile, logs.c 13: NULL, open, or already closed by CheckLength (95). *)
Inductive lptr := LNull | LOpen | LClosed.
(** The static variables, logs.c 10-17 and 99, the files and what was printed on the screen; [lg_plen] is strlen(FilePath). *)
Record log := mk_log { lg_fs : Z -> option lfile; lg_ptr : lptr; lg_cur : Z; lg_num : Z; lg_limit : Z; lg_plen : nat; lg_console : bool; lg_screen : list Z }.
(** Assignment to one file. logs.c 95-129. *)
Definition put_file (fs : Z -> option lfile) (n : Z) (f : option lfile) : Z -> option lfile := fun k => if k =? n then f else fs k.
(** Conversion to int, logs.c 67 (ftell), 154, 159. *)
Definition as_int (v : Z) : Z := (v + 2147483648) mod 4294967296 - 2147483648.
(** FileIsReadable, utils.c 655-666. *)
Definition readable (fs : Z -> option lfile) (n : Z) : bool := match fs n with Some f => lf_read f | None => false end.

(** The two calls of fopen, logs.c 51-68: the files afterwards and CurrentLength; [dir] tells whether files may be created in the folder. *)
Definition log_open (fs : Z -> option lfile) (dir : bool) : option ((Z -> option lfile) * Z) :=
  match fs 0 with
  | Some f => if lf_read f && lf_write f then Some (fs, as_int (Z.of_nat (length (lf_bytes f))))
              else if lf_write f then Some (put_file fs 0 (Some (mk_lfile [] (lf_read f) true)), 0) else None
  | None => if dir then Some (put_file fs 0 (Some (mk_lfile [] true true)), 0) else None
  end.
(** Log_Init, logs.c 30-78; [on] is LogOn, [folder] LogFileFolder, [limit] LogFileThresholdLength; FilePath has 17 characters more than the folder. *)
Definition log_init (fs : Z -> option lfile) (dir on console : bool) (folder : list Z) (limit : Z) : Z * log :=
  let none := mk_log fs LNull 0 0 0 0 console [] in
  if negb on then (0, none)
  else if (256 <=? length folder + 17)%nat then (-36, none)
  else match log_open fs dir with
  | None => (-44, none)
  | Some (fs1, cur) => (if limit <=? 0 then -60 else 0, mk_log fs1 LOpen cur 0 limit (length folder + 17) console [])
  end.
(** Log_Inited, logs.c 81-84. *)
Definition log_inited (g : log) : bool := match lg_ptr g with LNull => lg_console g | _ => true end.

(** The loop of CheckLength, logs.c 97-131, behind the fclose (95); [rok] and [ook]: rename and fopen succeed.  rename replaces an existing file. *)
Fixpoint roll (fuel : nat) (rok ook : bool) (g : log) (n : Z) : outcome log :=
  match fuel with
  | O => Fuel
  | S fuel' =>
    let n1 := n + 1 in
    let stop fs p cur := mk_log fs p cur n1 (lg_limit g) (lg_plen g) (lg_console g) (lg_screen g) in
    if (264 <=? lg_plen g + 1 + length (print_u n1))%nat then Ret (stop (lg_fs g) LClosed (lg_cur g))
    else if readable (lg_fs g) n1 then roll fuel' rok ook g n1
    else if negb rok then Ret (stop (lg_fs g) LClosed (lg_cur g))
    else
      let fs1 := put_file (put_file (lg_fs g) n1 (lg_fs g 0)) 0 None in
      if ook then Ret (stop (put_file fs1 0 (Some (mk_lfile [] true true))) LOpen 0) else Ret (stop fs1 LNull (lg_cur g))
  end.
(** CheckLength, logs.c 91-133. *)
Definition check_length (fuel : nat) (rok ook : bool) (g : log) : outcome log :=
  if lg_limit g <=? lg_cur g then roll fuel rok ook g (lg_num g) else Ret g.
(** What is in front of the message, logs.c 154-158, 166-170. *)
Definition stamp (date : list Z) (ty : option (list Z)) : list Z :=
  match ty with None => date ++ [32] | Some t => date ++ [32; 91] ++ t ++ [93; 32] end.
(** The writes to the file, logs.c 152-161; writing to NULL or to a closed file is undefined. *)
Definition append (g : log) (t : list Z) : outcome log :=
  match lg_ptr g, lg_fs g 0 with
  | LOpen, Some f => Ret (mk_log (put_file (lg_fs g) 0 (Some (mk_lfile (lf_bytes f ++ t) (lf_read f) (lf_write f)))) LOpen (as_int (lg_cur g + Z.of_nat (length t))) (lg_num g) (lg_limit g) (lg_plen g) (lg_console g) (lg_screen g))
  | _, _ => UBW
  end.
(** The writes to the screen, logs.c 164-173. *)
Definition show (g : log) (t : list Z) : log :=
  if lg_console g then mk_log (lg_fs g) (lg_ptr g) (lg_cur g) (lg_num g) (lg_limit g) (lg_plen g) true (lg_screen g ++ t) else g.
(** Log_Print, logs.c 135-179. *)
Definition log_print (fuel : nat) (rok ook : bool) (date : list Z) (ty : option (list Z)) (msg : list Z) (g : log) : outcome log :=
  if negb (log_inited g) then Ret g
  else
    let t := stamp date ty ++ msg in
    let! g1 := match lg_ptr g with LNull => Ret g | _ => let! g0 := check_length fuel rok ook g in append g0 t end in
    Ret (show g1 t).
