(** Model of main.c: the command line, the default paths, the table of options with its defaults, and the order in which the parts are started.

    [sop] (Config_Props) is one call of ConfigAddOption, ConfigAddAlias, ConfigSetStringDelimiters or ConfigSetDefaultValue, [run_setups] performs them by the model of readconfig.c.
    Not Windows, not Android; setenv is there.  What is printed is not modelled, except the arguments that are not recognised. *)
Require Import Ascii String List.
From Verif Require Import Base Addr_Model Arr_Model Slist_Model Chunk_Model Line_Model Config_Model Config_Props.
Import List.
Open Scope list_scope.

(** The static variables set by the command line, main.c 29-33. *)
Record flags := mk_flags { fl_file : option (list Z); fl_daemon : bool; fl_show : bool; fl_debug : bool }.
(** Their values at the start, main.c 29-33. *)
Definition flags0 : flags := mk_flags None false true false.
(** What ArgParse ends with: it returns, with the arguments it did not know, or exits after the help or after preparing the directory; main.c 367-437. *)
Inductive argres := Parsed (f : flags) (unknown : list (list Z)) | ShowHelp | DidPrepare.
(** ArgParse, main.c 367-437.  [args] are the elements of argv behind the first; a NULL follows them.  Behind "-f" the pointer is advanced twice: without an argument after it, beyond that NULL. *)
Fixpoint arg_parse (args : list (list Z)) (f : flags) (u : list (list Z)) : outcome argres :=
  match args with
  | [] => Ret (Parsed f (rev u))
  | a :: rest =>
    if str_eqb a (bytes "-h") then Ret ShowHelp
    else if str_eqb a (bytes "-q") then arg_parse rest (mk_flags (fl_file f) (fl_daemon f) false (fl_debug f)) u
    else if str_eqb a (bytes "-D") then arg_parse rest (mk_flags (fl_file f) (fl_daemon f) (fl_show f) true) u
    else if str_eqb a (bytes "-d") then arg_parse rest (mk_flags (fl_file f) true (fl_show f) (fl_debug f)) u
    else if str_eqb a (bytes "-f") then
      match rest with
      | [] => UBR
      | x :: rest' => arg_parse rest' (mk_flags (Some x) (fl_daemon f) (fl_show f) (fl_debug f)) u
      end
    else if str_eqb a (bytes "-p") then Ret DidPrepare
    else arg_parse rest f (a :: u)
  end.

(** GetConfigDirectory, utils.c 633-653, into [size] bytes.  [pw]: what getpwuid gives (None: NULL), with pw_dir (may be NULL). *)
Definition config_dir (pw : option (option (list Z))) (size : nat) : outcome (list Z) :=
  match pw with
  | None => UBR
  | Some None => Ret []
  | Some (Some h) => let d := h ++ bytes "/.dnsforwarder" in if (size <? length d + 1)%nat then UBW else Ret d
  end.
(** strcat into a buffer of [size] bytes, main.c 43-44, 68-70, 129-132, 147-150, 186-189, 339-340. *)
Definition cat_to (size : nat) (s t : list Z) : outcome (list Z) := if (size <? length (s ++ t) + 1)%nat then UBW else Ret (s ++ t).
(** GetDefaultConfigureFile into the 320 bytes of main, main.c 333-343 and 489-499. *)
Definition default_config (pw : option (option (list Z))) : outcome (list Z) := let! d := config_dir pw 320 in cat_to 320 d (bytes "/config").
(** GetPathPart, utils.c 1319-1333: up to the last slash. *)
Fixpoint path_part (s : list Z) : option (list Z) :=
  match s with
  | [] => None
  | c :: s' => match path_part s' with Some r => Some (c :: r) | None => if c =? 47 then Some [47] else None end
  end.
(** The value of CONFIGFILEDIRECTORY, main.c 48-57. *)
Definition file_dir (file : list Z) : list Z := match path_part (firstn 1023 file) with Some d => d | None => bytes "./" end.
(** GetFileDirectory, strcat of a slash and of a name, in TmpStr; main.c 43-44, 68-69, 129-131, 147-149, 186-188. *)
Definition file_in (pw : option (option (list Z))) (name : list Z) : outcome (list Z) :=
  let! d := config_dir pw 1024 in
  let! s := cat_to 1024 d [47] in
  match name with [] => Ret s | _ => cat_to 1024 s name end.

(** The calls that make the table of options, main.c 60-223. *)
Definition main_setup (dir stat hosts cache : list Z) : list sop :=
  let bool_opt (n : string) v := SOpt (bytes n) StDefault TBool 0 v None in
  let int_opt (n : string) v := SOpt (bytes n) StDefault TInt v false None in
  let list_opt (n : string) := SOpt (bytes n) StAppend TStr 0 false None in
  [bool_opt "LogOn"%string false; int_opt "LogFileThresholdLength"%string 102400; SOpt (bytes "LogFileFolder") StReplace TPath 0 false (Some dir);
   SOpt (bytes "UDPLocal") StDiscard TStr 0 false None; SDelims (bytes "UDPLocal") [44]; SDefault (bytes "UDPLocal") 0 false (bytes "127.0.0.1:53");
   SOpt (bytes "TCPLocal") StDiscard TStr 0 false None; SDelims (bytes "TCPLocal") [44];
   SOpt (bytes "ServerGroup") StDiscard TStr 0 false None; SDelims (bytes "ServerGroup") [9; 32]; SDefault (bytes "ServerGroup") 0 false (bytes "UDP 1.2.4.8,114.114.114.114 * on");
   SAlias (bytes "ServerGroup") (bytes "GroupFile") (Some (bytes "FILE")) (Some []); SAlias (bytes "ServerGroup") (bytes "UDPGroup") (Some (bytes "UDP")) None;
   SAlias (bytes "ServerGroup") (bytes "TCPGroup") (Some (bytes "TCP")) None; SAlias (bytes "ServerGroup") (bytes "TLSGroup") (Some (bytes "TLS")) None;
   bool_opt "EnableUDPtoTCP"%string false; bool_opt "EnableTCPtoUDP"%string false; int_opt "TCPKeepAlive"%string 5; list_opt "BlockIP"%string; bool_opt "AP"%string false;
   list_opt "IPSubstituting"%string; SDelims (bytes "IPSubstituting") [9; 32; 44]; SOpt (bytes "IPSubstitutingFile") StAppend TPath 0 false None;
   bool_opt "BlockNegativeResponse"%string false; bool_opt "DomainStatistic"%string false; SOpt (bytes "DomainStatisticTempletFile") StReplace TPath 0 false (Some stat);
   SOpt (bytes "StatisticInsertionPosition") StDefault TStr 0 false (Some (bytes "<!-- INSERT HERE -->")); int_opt "StatisticUpdateInterval"%string 60;
   SOpt (bytes "Hosts") StAppend TPath 0 false None; int_opt "HostsRetryInterval"%string 30; SOpt (bytes "HostsDownloadPath") StReplace TPath 0 false (Some hosts);
   SOpt (bytes "HostsScript") StReplace TStr 0 false None; list_opt "AppendHosts"%string; bool_opt "BlockIpv6WhenIpv4Exists"%string false; int_opt "ModulesUpdateInterval"%string 18000;
   bool_opt "ReloadDisabledList"%string true; bool_opt "ReloadGroupFile"%string true; bool_opt "ReloadIPSubstituting"%string true; bool_opt "UseCache"%string true; bool_opt "CacheParallel"%string false; int_opt "CacheSize"%string 1048576;
   bool_opt "MemoryCache"%string true; SOpt (bytes "CacheFile") StReplace TPath 0 false (Some cache); bool_opt "IgnoreTTL"%string false; int_opt "OverrideTTL"%string (-1); int_opt "MultipleTTL"%string 1;
   list_opt "CacheControl"%string; bool_opt "ReloadCache"%string false; bool_opt "OverwriteCache"%string false; list_opt "DisabledType"%string; list_opt "DisabledDomain"%string; SOpt (bytes "DisabledList") StAppend TPath 0 false None;
   list_opt "GoodIPList"%string; list_opt "GoodIPListAddIP"%string].

Section Start.
Context (junk : nat -> Z) (stale : Z) (expand : list Z -> nat -> list Z).
(** EnvironmentInit, main.c 37-235: the two environment variables and the options.  [bs]: the bytes of the configuration file (None: it cannot be opened). *)
Definition env_init (fuel : nat) (pw : option (option (list Z))) (file : list Z) (bs : option (list Z)) : outcome (list Z * list Z * cfg) :=
  let! dir := file_in pw [] in
  let! stat := file_in pw (bytes "StatisticTemplate.html") in
  let! hosts := file_in pw (bytes "hosts.txt") in
  let! cache := file_in pw (bytes "cache") in
  let! g := run_setups junk cfg_init (main_setup dir stat hosts cache) in
  match bs with
  | None => Ret (dir, file_dir file, g)
  | Some b => let! r := config_read junk stale expand fuel g (mkf b false) 0 in Ret (dir, file_dir file, snd r)
  end.
End Start.

(** What the parts that are started return (0: success), and whether DaemonInit succeeds; main.c 506-584. *)
Record parts := mk_parts { p_daemon : Z; p_log : Z; p_task : Z; p_stat : Z; p_udp : Z; p_tcp : Z; p_mod : Z }.
(** What main does, in order, main.c 506-584. *)
Inductive step := Detach | OpenLog (show debug : bool) | StartTimer | OpenStatistic | BindUdp | BindTcp | LoadModules | ServeUdp | ServeTcp.
(** main behind the parsing of the arguments, main.c 506-584: the steps and the value returned (the thread ends with 0 while the others go on). *)
Definition main_run (f : flags) (p : parts) : list step * Z :=
  let detached := fl_daemon f && (p_daemon p =? 0) in
  let s1 := (if fl_daemon f then [Detach] else []) ++ [OpenLog (fl_show f && negb detached) (fl_debug f)] in
  if negb (p_log p =? 0) then (s1, -291)
  else let s2 := s1 ++ [StartTimer] in
  if negb (p_task p =? 0) then (s2, -505)
  else let s3 := s2 ++ [OpenStatistic] in
  if negb (p_stat p =? 0) then (s3, -496)
  else let s4 := s3 ++ [BindUdp; BindTcp] in
  if negb (p_udp p =? 0) && negb (p_tcp p =? 0) then (s4, -311)
  else let s5 := s4 ++ [LoadModules] in
  if negb (p_mod p =? 0) then (s5, -305)
  else (s5 ++ (if p_udp p =? 0 then [ServeUdp] else []) ++ (if p_tcp p =? 0 then [ServeTcp] else []), 0).
