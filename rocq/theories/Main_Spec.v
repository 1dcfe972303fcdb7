(** What the command line means, and the options of the manual with their defaults. *)
Require Import Ascii String List.
From Verif Require Import Base Config_Model Config_Proofs Config_Props.
Import List.
Open Scope list_scope.

(** The parts of a command line. *)
Inductive item := IQuiet | IDebug | IDaemon | IFile (x : list Z) | IOther (a : list Z).
Definition item_ok (i : item) : Prop := match i with IOther a => ~ In a (map bytes ["-h"; "-q"; "-D"; "-d"; "-f"; "-p"]%string) | _ => True end.
Definition written (i : item) : list (list Z) :=
  match i with IQuiet => [bytes "-q"] | IDebug => [bytes "-D"] | IDaemon => [bytes "-d"] | IFile x => [bytes "-f"; x] | IOther a => [a] end.

(** The options by name: default, how lines accumulate, type; [dir] is the directory ~/.dnsforwarder/. *)
Definition num (n : string) (z : Z) : list Z * aentry := (bytes n, AOpt (mk_dopt TInt StDefault false z false [] [44])).
Definition flag (n : string) (b : bool) : list Z * aentry := (bytes n, AOpt (mk_dopt TBool StDefault false 0 b [] [44])).
Definition text (n : string) (st : strategy) (def : list (list Z)) (delims : list Z) : list Z * aentry := (bytes n, AOpt (mk_dopt TStr st false 0 false def delims)).
Definition path (n : string) (st : strategy) (def : list (list Z)) : list Z * aentry := (bytes n, AOpt (mk_dopt TPath st false 0 false def [44])).
Definition group (n w : string) (delims : option (list Z)) : list Z * aentry := (bytes n, AAlias (bytes "ServerGroup") (Some (bytes w)) delims).
Definition manual (dir stat hosts cache : list (list Z)) : atable :=
  [flag "LogOn" false; num "LogFileThresholdLength" 102400; path "LogFileFolder" StReplace dir;
   text "UDPLocal" StDiscard [bytes "127.0.0.1:53"] [44]; text "TCPLocal" StDiscard [] [44];
   text "ServerGroup" StDiscard (map bytes ["UDP"; "1.2.4.8,114.114.114.114"; "*"; "on"]%string) [9; 32];
   group "GroupFile" "FILE" (Some []); group "UDPGroup" "UDP" None; group "TCPGroup" "TCP" None; group "TLSGroup" "TLS" None;
   flag "EnableUDPtoTCP" false; flag "EnableTCPtoUDP" false; num "TCPKeepAlive" 5; text "BlockIP" StAppend [] [44]; flag "AP" false;
   text "IPSubstituting" StAppend [] [9; 32; 44]; path "IPSubstitutingFile" StAppend []; flag "BlockNegativeResponse" false;
   flag "DomainStatistic" false; path "DomainStatisticTempletFile" StReplace stat; text "StatisticInsertionPosition" StDefault [bytes "<!-- INSERT HERE -->"] [44]; num "StatisticUpdateInterval" 60;
   path "Hosts" StAppend []; num "HostsRetryInterval" 30; path "HostsDownloadPath" StReplace hosts; text "HostsScript" StReplace [] [44]; text "AppendHosts" StAppend [] [44];
   flag "BlockIpv6WhenIpv4Exists" false; num "ModulesUpdateInterval" 18000; flag "ReloadDisabledList" true; flag "ReloadGroupFile" true; flag "ReloadIPSubstituting" true;
   flag "UseCache" true; flag "CacheParallel" false; num "CacheSize" 1048576; flag "MemoryCache" true; path "CacheFile" StReplace cache;
   flag "IgnoreTTL" false; num "OverrideTTL" (-1); num "MultipleTTL" 1; text "CacheControl" StAppend [] [44]; flag "ReloadCache" false; flag "OverwriteCache" false;
   text "DisabledType" StAppend [] [44]; text "DisabledDomain" StAppend [] [44]; path "DisabledList" StAppend []; text "GoodIPList" StAppend [] [44]; text "GoodIPListAddIP" StAppend [] [44]].
(** The file [name] in the directory .dnsforwarder of [home]. *)
Definition in_home (home : list Z) (name : string) : list Z := home ++ bytes "/.dnsforwarder/" ++ bytes name.
