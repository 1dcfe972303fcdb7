From Verif Require Import Base Gen_Model Hosts_Model.

(** * Model of readline.c

    A file open for reading is the bytes that are still to come and its end-of-file mark.  Only the string in the buffer is kept, not the bytes behind its
    end (nothing reads them).  isspace is the one of the C locale.  [Buffer == NULL] (readline.c:72) is not modelled: the only calls with it never read. *)
Record file := mkf { f_bytes : list Z; f_eof : bool }.
(** fgets, C library: up to [k] bytes, not past a line end; the last part of the result tells whether the end of the file was met. readline.c 67-134. *)
Fixpoint take_line (k : nat) (bs : list Z) : list Z * list Z * bool :=
  match k with
  | O => ([], bs, false)
  | S k' =>
    match bs with
    | [] => ([], [], true)
    | c :: bs' => if c =? 10 then ([c], bs', false) else let '(a, r, e) := take_line k' bs' in (c :: a, r, e)
    end
  end.
(** fgets(Buffer, size, fp): None for NULL (nothing read before the end of the file).  The string ends at the first NUL byte of what was read. readline.c 67-134. *)
Definition fgets (size : nat) (f : file) : option (list Z) * file :=
  let '(a, r, e) := take_line (size - 1) (f_bytes f) in
  match a, e with
  | [], true => (None, mkf [] true)
  | _, _ => (Some (cstr a), mkf r (f_eof f || e))
  end.
(** The backward scan over blanks, used at readline.c:12 and 58. *)
Fixpoint rstrip (l : list Z) : list Z :=
  match l with
  | [] => []
  | c :: l' => match rstrip l' with [] => if is_space c then [] else [c] | r => c :: r end
  end.
(** strchr: what stands before the first [mark]. readline.c 6-18. *)
Fixpoint before (mark : Z) (l : list Z) : option (list Z) :=
  match l with
  | [] => None
  | c :: l' => if c =? mark then Some [] else match before mark l' with Some a => Some (c :: a) | None => None end
  end.
(** ClearAnnotation, readline.c:6-18; None for FALSE. *)
Definition clear_ann (s : list Z) (mark : Z) : option (list Z) :=
  match before mark s with Some a => Some (rstrip a) | None => None end.
(** ReachedLineEnd, readline.c:20-35. *)
Definition reached_end (f : file) (s : list Z) : bool :=
  match rev s with
  | c :: _ => if (c =? 13) || (c =? 10) then true else f_eof f
  | [] => f_eof f
  end.
(** EliminateCRLF, readline.c:37-41. *)
Definition elim_crlf (s : list Z) : list Z :=
  let s1 := match clear_ann s 13 with Some a => a | None => s end in
  match clear_ann s1 10 with Some a => a | None => s1 end.
(** EliminateHeadSpace, readline.c:43-53. *)
Fixpoint elim_head (s : list Z) : list Z :=
  match s with [] => [] | c :: s' => if is_space c then elim_head s' else s end.
(** EliminateFootSpace, readline.c:55-65: the loop looks at the byte before it checks whether it is still inside the string, so a string of blanks only
    makes it read the byte in front of the buffer. *)
Definition elim_foot (s : list Z) : outcome (list Z) :=
  match s with
  | [] => Ret []
  | _ => if forallb is_space s then UBR else Ret (rstrip s)
  end.
(** readline.c:84-91, the rest of a line behind a comment mark; None when the file ends (the function then returns READ_FAILED_OR_END). *)
Fixpoint black_hole (fuel : nat) (f : file) : outcome (option file * file) :=
  match fuel with
  | O => Fuel
  | S fuel' =>
    match fgets 128 f with
    | (None, f1) => Ret (None, f1)
    | (Some s, f1) => if reached_end f1 s then Ret (Some f1, f1) else black_hole fuel' f1
    end
  end.
(** ReadLineStatus, readline.h 6-11, with the text left in the buffer. *)
Inductive rl := RlEnd | RlDone (s : list Z) | RlTrunc (s : list Z).
(** ReadLine, readline.c:67-120.  [fuel] bounds the jumps back to START. *)
Fixpoint read_line (fuel : nat) (size : nat) (f : file) : outcome (rl * file) :=
  match fuel with
  | O => Fuel
  | S fuel' =>
    match fgets size f with
    | (None, f1) => Ret (RlEnd, f1)
    | (Some s, f1) =>
      let ended := reached_end f1 s in
      match match clear_ann s 35 with Some b => Some b | None => clear_ann s 59 end with
      | Some b =>
        let! o := if ended then Ret (Some f1, f1) else black_hole (S (length (f_bytes f1))) f1 in
        match o with
        | (None, f2) => Ret (RlEnd, f2)
        | (Some f2, _) =>
          let! b1 := elim_foot b in
          match elim_head b1 with
          | [] => read_line fuel' size f2
          | b2 => Ret (RlDone b2, f2)
          end
        end
      | None =>
        if ended then
          let! b1 := elim_foot (elim_crlf s) in
          match elim_head b1 with
          | [] => read_line fuel' size f1
          | b2 => Ret (RlDone b2, f1)
          end
        else Ret (RlTrunc s, f1)
      end
    end
  end.
(** One call, with jumps enough for any file. readline.c 67-120. *)
Definition read_line1 (size : nat) (f : file) : outcome (rl * file) := read_line (S (length (f_bytes f))) size f.
(** ReadLine_GoToNextLine, readline.c:122-134. *)
Fixpoint next_line (fuel : nat) (f : file) : outcome (rl * file) :=
  match fuel with
  | O => Fuel
  | S fuel' => let! r := read_line1 128 f in match fst r with RlTrunc _ => next_line fuel' (snd r) | _ => Ret r end
  end.
(** All calls of ReadLine up to the end of the file, as every loader makes them (readconfig.c:376, statichosts.c, filter.c:103, ...). *)
Fixpoint read_all (fuel : nat) (size : nat) (f : file) : outcome (list rl) :=
  match fuel with
  | O => Fuel
  | S fuel' =>
    let! r := read_line1 size f in
    match fst r with RlEnd => Ret [] | x => let! q := read_all fuel' size (snd r) in Ret (x :: q) end
  end.
