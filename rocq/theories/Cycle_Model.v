(** Model of a query for a name with an alias on its way round: hosts.c 174-243 with 43-84, 86-117 and mmgr.c 833-837. *)
From Verif Require Import Base Hosts_Model Mctx_Model Iheader_Model Udpm_Model Hmsg_Model Redir_Model.

Section Follow.
(** As in Hmsg_Model and Redir_Model. *)
Context (fn : list Z -> list Z -> bool) (good : list Z -> option (list Z)) (hdr : iheader -> list Z) (osock : Z) (oaddr : list Z) (leave : ubuf -> ubuf).
Context (fuel nf : nat) (block6 : bool) (st dy : option hosts).

(** The query [c], not refused (mmgr.c 827-831), comes to Hosts_Get (mmgr.c 833-837); if it is for a name with an alias it comes to the thread (hosts.c 70-76 and
    198-204), whose new query is given to MMgr_Send (hosts.c 243) and comes to Hosts_Get again.  Each element of the list is one round: rand() and time(NULL).
    All sends succeed and nothing else happens meanwhile.  The result: what the thread does in each round, the last query, the thread's state. *)
Fixpoint follow (c : mctx) (s : rst) (ticks : list (Z * Z)) : outcome (list rev * mctx * rst) :=
  match ticks with
  | [] => Ret ([], c, s)
  | (rnd, now) :: ticks' =>
    let! g := hosts_get fn good hdr fuel block6 st dy c true 0 in
    match g with
    | (_, H_inner h id, _) =>
      let! r := inner_turn fn osock oaddr leave fuel nf st dy s h id rnd now in
      match r with
      | (RV_asked c2, s2) => let! x := follow c2 s2 ticks' in let '(es, c3, s3) := x in Ret (RV_asked c2 :: es, c3, s3)
      | (e, s2) => Ret ([e], c, s2)
      end
    | _ => Ret ([], c, s)
    end
  end.
End Follow.
