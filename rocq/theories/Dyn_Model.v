(** Model of loading the two hosts tables: StaticHosts_Init (statichosts.c 13-49), DynamicHosts_Load (dynamichosts.c 41-97), DynamicHosts_Init
    (dynamichosts.c 166-239) and what the updating thread (114-164) does to the table. *)
From Verif Require Import Base Hosts_Model Line_Model Dl_Model.

Section Load.
Context (parse : list Z -> ipaddr).

(** The loop of DynamicHosts_Load, dynamichosts.c 66-82 (Buffer has 320 bytes, 44). *)
Fixpoint dyn_lines (fuel : nat) (f : file) (h : hosts) : outcome hosts :=
  match fuel with
  | O => Fuel
  | S fuel' =>
    let! r := read_line1 320 f in
    match fst r with
    | RlEnd => Ret h
    | RlTrunc _ => let! q := next_line (S (length (f_bytes (snd r)))) (snd r) in dyn_lines fuel' (snd q) h
    | RlDone s => let! x := hosts_load parse h s in dyn_lines fuel' (snd r) (snd x)
    end
  end.
(** DynamicHosts_Load, dynamichosts.c 41-97: the returned value and MainDynamicContainer.  [o]: the bytes of the file if fopen (49) succeeds; [ok_new], [ok_init]:
    SafeMalloc (55) and HostsContainer_Init (61) succeed.  The table is exchanged under the lock (86-91). *)
Definition dyn_load (o : option (list Z)) (ok_new ok_init : bool) (cur : option hosts) : outcome (Z * option hosts) :=
  match o with
  | None => Ret (-1, cur)
  | Some bs =>
    if negb ok_new then Ret (-1, cur)
    else if negb ok_init then Ret (-1, cur)
    else let! h := dyn_lines (S (length bs)) (mkf bs false) hosts_init in Ret (0, Some h)
  end.
(** A 32-bit product, dynamichosts.c 231 (an overflow is undefined in C; the usual machines wrap). *)
Definition int32 (x : Z) : Z := (x + 2147483648) mod 4294967296 - 2147483648.
(** The arguments of TimedTask_Add: Persistent, Asynchronous, Milliseconds, Immediate. dynamichosts.c 218-236. *)
Definition timed := (bool * bool * Z * bool)%type.
(** DynamicHosts_Init, dynamichosts.c 166-239: the returned value, MainDynamicContainer, the task.  [urls]: "Hosts" is given; [script]: the result of ExpandPathTo (189) if
    "HostsScript" is given; [o]: the bytes of the hosts file if it is readable (209), which DynamicHosts_Load then opens. *)
Definition dyn_init (urls : bool) (script : option bool) (retry update : Z) (o : option (list Z)) (ok_new ok_init : bool) : outcome (Z * option hosts * option timed) :=
  if negb urls then Ret (-151, None, None)
  else match script with
  | Some false => Ret (-170, None, None)
  | _ =>
    if retry <? 0 then Ret (-167, None, None)
    else
      let! d := match o with Some _ => dyn_load o ok_new ok_init None | None => Ret (0, None) end in
      Ret (0, snd d, Some (if update <=? 0 then (false, true, 0, true) else (true, true, int32 (update * 1000), true)))
  end.
(** StaticHosts_Init, statichosts.c 13-49: the returned value and the table ([None]: Inited stays FALSE).  [ok_init], [ok_iter]: HostsContainer_Init (20), StringListIterator_Init (31). *)
Definition static_init (strings : option (list (list Z))) (ok_init ok_iter : bool) : outcome (Z * option hosts) :=
  if negb ok_init then Ret (-17, None)
  else match strings with
  | None => Ret (-22, None)
  | Some l => if negb ok_iter then Ret (-27, None) else let! h := hosts_of parse hosts_init l in Ret (0, Some h)
  end.
(** GetHostsFromInternet_Thread, dynamichosts.c 114-164, with what it does to the hosts table.  [script]: what the script does to the files. *)
Definition dyn_update (expand : list Z -> option (list Z)) (can_write : list Z -> bool) (dl : nat -> nat -> bool * list Z) (fuel : nat) (rok : bool) (fs : files) (urls : list (list Z)) (path : list Z)
    (script : option (files -> files)) (ok_new ok_init : bool) (cur : option hosts) : outcome (option hosts * files) :=
  let! r := update_thread expand can_write dl fuel rok fs urls path (match script with Some _ => true | None => false end) in
  match fst r with
  | [] => Ret (cur, snd r)
  | _ => let fs1 := match script with Some g => g (snd r) | None => snd r end in let! d := dyn_load (fs1 path) ok_new ok_init cur in Ret (snd d, fs1)
  end.
End Load.
