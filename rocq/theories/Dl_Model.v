(** Model of fetching the hosts files: downloader.c, CopyAFile and GetLocalPathFromURL (utils.c 972-1052), and the updating thread (dynamichosts.c 114-164).

    The files: a function from paths to bytes.  [can_write] tells which paths can be opened for writing; a path that is in the function can be read; writes
    succeed.  [dl j k] is the k-th download for the j-th URL (GetFromInternet_Base 191-304, with libcurl): whether it succeeds, and the bytes it leaves.  [expand] is ExpandPath (wordexp).
    Allocations succeed.  The callbacks only log. *)
From Verif Require Import Base Slist_Model.

(** Files by path. downloader.c 30-84. *)
Definition files := list Z -> option (list Z).
(** Comparison of paths. downloader.c 30-84. *)
Definition same_path (a b : list Z) : bool := if list_eq_dec Z.eq_dec a b then true else false.
(** Assignment to one file. downloader.c 30-84. *)
Definition fput (fs : files) (p : list Z) (o : option (list Z)) : files := fun q => if same_path q p then o else fs q.
(** ".tmp" behind the path, downloader.c 48-49 and 126-127. *)
Definition tmp_of (p : list Z) : list Z := p ++ [46;116;109;112].

Section Download.
Context (expand : list Z -> option (list Z)) (can_write : list Z -> bool) (dl : nat -> nat -> bool * list Z).

(** CopyAFile, utils.c 1018-1052, for two different files. *)
Definition copy_file (fs : files) (src dst : list Z) (app_ : bool) : Z * files :=
  match fs src with
  | None => (-1, fs)
  | Some b => if can_write dst then (0, fput fs dst (Some ((if app_ then match fs dst with Some o => o | None => [] end else []) ++ b))) else (-2, fs)
  end.
(** for( ; *Itr == '/'; ++Itr ), utils.c 986. *)
Fixpoint skip_slash (s : list Z) : list Z := match s with c :: s' => if c =? 47 then skip_slash s' else s | [] => [] end.
(** GetLocalPathFromURL, utils.c 972-1016; the step back (989) leads to a slash. *)
Definition local_path (url : list Z) (size : nat) : option (list Z) :=
  match find_str [58;47;47] url with
  | None => None
  | Some i => let p := 47 :: skip_slash (skipn (i + 1) url) in if (size <? length p + 1)%nat then None else expand p
  end.
(** GetFromInternet_Base with libcurl, downloader.c 246-287: the file cannot be opened, or gets what was received. *)
Definition base (j k : nat) (fs : files) (p : list Z) : bool * files :=
  if can_write p then (fst (dl j k), fput fs p (Some (snd (dl j k)))) else (false, fs).
(** The loop of GetFromInternet_SingleFile, downloader.c 129-168; [k] downloads have been tried. *)
Fixpoint attempts (fuel j k : nat) (fs : files) (file : list Z) (app_ : bool) (times : Z) : outcome (Z * files) :=
  match fuel with
  | O => Fuel
  | S fuel' =>
    if times =? 0 then Ret (-1, fs)
    else
      let (ok, fs1) := base j k fs (tmp_of file) in
      if ok then let (r, fs2) := copy_file fs1 (tmp_of file) file app_ in Ret (if r =? 0 then 0 else -1, fs2)
      else attempts fuel' j (S k) fs1 file app_ (if 0 <? times then times - 1 else times)
  end.
(** strncmp(URL, "file", 4) == 0, downloader.c 95. *)
Definition is_file (url : list Z) : bool := same_path (firstn 4 url) [102;105;108;101].
(** GetFromInternet_SingleFile, downloader.c 86-175. *)
Definition single (fuel j : nat) (fs : files) (url file : list Z) (app_ : bool) (times : Z) : outcome (Z * files) :=
  if is_file url then
    match local_path url 384 with
    | None => Ret (-1, fs)
    | Some p => let (r, fs1) := copy_file fs p file app_ in Ret (if r =? 0 then 0 else -1, fs1)
    end
  else let! r := attempts fuel j 0 fs file app_ times in Ret (fst r, fput (snd r) (tmp_of file) None).
(** The loop of GetFromInternet_MultiFiles, downloader.c 61-75. *)
Fixpoint each_url (fuel j : nat) (fs : files) (urls : list (list Z)) (tmp : list Z) (times : Z) (state : bool) : outcome (bool * files) :=
  match urls with
  | [] => Ret (state, fs)
  | u :: urls' =>
    let! r := single fuel j fs u tmp true times in
    let state1 := state || (fst r =? 0) in
    if can_write tmp then each_url fuel (S j) (fput (snd r) tmp (Some (match snd r tmp with Some o => o | None => [] end ++ [10]))) urls' tmp times state1
    else Ret (state1, snd r)
  end.
(** GetFromInternet_MultiFiles, downloader.c 30-84; [rok]: rename succeeds (80). *)
Definition multi (fuel : nat) (rok : bool) (fs : files) (urls : list (list Z)) (file : list Z) (times : Z) : outcome (Z * files) :=
  let tmp := tmp_of file in
  if can_write tmp then
    let! r := each_url fuel 0 (fput fs tmp (Some [])) urls tmp times false in
    let fs1 := snd r in
    if fst r then Ret (0, if rok then fput (fput fs1 file (fs1 tmp)) tmp None else fput fs1 file None)
    else Ret (1, fs1)
  else Ret (-2, fs).

(** What the updating thread does behind the download, dynamichosts.c 138-163. *)
Inductive update_event := RunScript | LoadHosts | LoadFilter | LoadIpMisc | LoadModules.
(** GetHostsFromInternet_Thread, dynamichosts.c 114-164; it asks for unlimited attempts (133). *)
Definition update_thread (fuel : nat) (rok : bool) (fs : files) (urls : list (list Z)) (file : list Z) (script : bool) : outcome (list update_event * files) :=
  let! r := multi fuel rok fs urls file (-1) in
  Ret (if fst r =? 0 then (if script then [RunScript] else []) ++ [LoadHosts; LoadFilter; LoadIpMisc; LoadModules] else [], snd r).
End Download.
