(** Model of the statistics (domainstatistic.c): what is counted, and what the page written lists.
    Simplified: the counters are unbounded (the C ones are ints, which would need 2^31 events); the HTML text around the numbers is not modelled. *)
From Verif Require Import Base Hash_Model Sht_Model Chunk_Model.

(** StatisticType, domainstatistic.h 7-15. *)
Inductive stype := SRefused | SHosts | SCache | SUdp | STcp | SBlocked.

(** struct _DomainInfo, domainstatistic.c 11-19. *)
Record info := mk_info { i_count : Z; i_refused : Z; i_hosts : Z; i_cache : Z; i_udp : Z; i_tcp : Z; i_blocked : Z }.

(** memset(&NewInfo, 0, ...), 289; memset(&Sum, 0, ...), 104. *)
Definition info0 : info := mk_info 0 0 0 0 0 0 0.

(** The switch on a new domain, 291-323. *)
Definition info_new (t : stype) : info :=
  match t with
  | SRefused => mk_info 1 1 0 0 0 0 0
  | SHosts => mk_info 1 0 1 0 0 0 0
  | SCache => mk_info 1 0 0 1 0 0 0
  | SUdp => mk_info 1 0 0 0 1 0 0
  | STcp => mk_info 1 0 0 0 0 1 0
  | SBlocked => mk_info 0 0 0 0 0 0 1
  end.

(** The switch on a known domain, 329-359. *)
Definition info_bump (t : stype) (i : info) : info :=
  match t with
  | SRefused => mk_info (i_count i + 1) (i_refused i + 1) (i_hosts i) (i_cache i) (i_udp i) (i_tcp i) (i_blocked i)
  | SHosts => mk_info (i_count i + 1) (i_refused i) (i_hosts i + 1) (i_cache i) (i_udp i) (i_tcp i) (i_blocked i)
  | SCache => mk_info (i_count i + 1) (i_refused i) (i_hosts i) (i_cache i + 1) (i_udp i) (i_tcp i) (i_blocked i)
  | SUdp => mk_info (i_count i + 1) (i_refused i) (i_hosts i) (i_cache i) (i_udp i + 1) (i_tcp i) (i_blocked i)
  | STcp => mk_info (i_count i + 1) (i_refused i) (i_hosts i) (i_cache i) (i_udp i) (i_tcp i + 1) (i_blocked i)
  | SBlocked => mk_info (i_count i) (i_refused i) (i_hosts i) (i_cache i) (i_udp i) (i_tcp i) (i_blocked i + 1)
  end.

(** MainChunk and SkipStatistic, 21-40.  The DomainInfo of an entry is updated in place through the pointer StringChunk_Match
    returns, so the entries hold the position of their DomainInfo in [st_infos] (the stable buffer of the chunk, C36). *)
Record stat := mk_stat { st_chunk : chunk nat; st_infos : list info; st_skip : bool }.

(** DomainStatistic_Init, 207-262. *)
Definition stat_init : stat := mk_stat chunk_init [] false.

Section Stat.
(** fnmatch(pattern, string) == 0, see Chunk_Model. *)
Context (fn : list Z -> list Z -> bool).

(** ++(ExistInfo->...). domainstatistic.c 264-368. *)
Fixpoint info_update (l : list info) (k : nat) (f : info -> info) : list info :=
  match l, k with
  | [], _ => []
  | i :: l', O => f i :: l'
  | i :: l', S k' => i :: info_update l' k' f
  end.

(** DomainStatistic_Add, 264-368, with the statistics enabled (MainFile != NULL); [dom], [hv] are h->Domain, h->HashValue. *)
Definition stat_add (s : stat) (dom : list Z) (hv : Z) (t : stype) : outcome stat :=
  if st_skip s then Ret s
  else
    let! r := chunk_match fn (st_chunk s) dom (Some hv) (fun _ => true) in
    match r with
    | None => Ret (mk_stat (chunk_add (st_chunk s) dom (Some (length (st_infos s)))) (st_infos s ++ [info_new t]) (st_skip s))
    | Some None => Ret s
    | Some (Some k) => Ret (mk_stat (st_chunk s) (info_update (st_infos s) k (info_bump t)) (st_skip s))
    end.

(** DomainStatistic_Works, 120-122 and 162-164: events are not recorded in between. *)
Definition stat_begin (s : stat) : stat := mk_stat (st_chunk s) (st_infos s) true.
(** The end of writing the page, domainstatistic.c 87-192. *)
Definition stat_end (s : stat) : stat := mk_stat (st_chunk s) (st_infos s) false.

(** DomainStatistic_Works, 129-135. *)
Definition info_sum (a b : info) : info :=
  mk_info (i_count a + i_count b) (i_refused a + i_refused b) (i_hosts a + i_hosts b) (i_cache a + i_cache b)
          (i_udp a + i_udp b) (i_tcp a + i_tcp b) (i_blocked a + i_blocked b).

(** DomainStatistic_Works, 118-160: the lines printed and Sum. *)
Fixpoint report_loop (infos : list info) (l : list (entry nat)) (sum : info) : list (list Z * info) * info :=
  match l with
  | [] => ([], sum)
  | e :: l' =>
    match e_data e with
    | Some k => match nth_error infos k with
                | Some i => let (ls, s) := report_loop infos l' (info_sum sum i) in ((e_str e, i) :: ls, s)
                | None => report_loop infos l' sum
                end
    | None => report_loop infos l' sum
    end
  end.
(** The rows and the total of the page, domainstatistic.c 87-192. *)
Definition stat_report (s : stat) : list (list Z * info) * info :=
  report_loop (st_infos s) (chunk_enum (st_chunk s)) info0.

(** The calls, as they come: an event, and the beginning and end of writing the page. domainstatistic.c 87-192 and 264-368. *)
Inductive sop := SEvent (dom : list Z) (hv : Z) (t : stype) | SBegin | SEnd.
(** A sequence of calls, domainstatistic.c 87-192 and 264-368. *)
Fixpoint stat_run (s : stat) (ops : list sop) : outcome stat :=
  match ops with
  | [] => Ret s
  | SEvent d hv t :: ops' => let! s' := stat_add s d hv t in stat_run s' ops'
  | SBegin :: ops' => stat_run (stat_begin s) ops'
  | SEnd :: ops' => stat_run (stat_end s) ops'
  end.
End Stat.
