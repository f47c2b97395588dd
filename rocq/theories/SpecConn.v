(** SpecConn.v — histories of a connection table and what its user expects of it. *)
From Verif Require Import Base CircBuf Wire Conn.

(** One call on the table, with the results of the system calls it makes. *)
Inductive cop :=
| OpAccept (listen : Z) (o : acc_res)
| OpConnect (addr port node : Z) (o : sock_res)
| OpComplete (i : Z) (o : cmp_res)       (* the socket of a connecting slot became writable *)
| OpClose (i : Z)
| OpIO (i act : Z) (rb wb : cbuf).       (* reading or writing on an open slot *)

(** rmc_sub_write.c:284-298 calls rmc_conn_complete_connection only for a slot that is
    CONNECTING; rmc_pub_read.c, rmc_pub_write.c, rmc_sub_read.c and rmc_sub_write.c only read
    and write open slots, changing their rings and action and reporting the latter. *)
Definition cstep (v : cvec) (o : cop) : res (Z * cvec * list cev) :=
  match o with
  | OpAccept listen r => do x <- process_accept listen v r;
                         let '(code, _, v', evs) := x in Ok (code, v', evs)
  | OpConnect addr port node r => do x <- connect_tcp v addr port node r;
                                  let '(code, _, v', evs) := x in Ok (code, v', evs)
  | OpComplete i r =>
      do f <- find_by_index v i;
      match f with
      | Some c => if c_mode c =? CONNECTING then complete_conn v i r else Ok (0, v, [])
      | None => Ok (ENOTCONN, v, [])
      end
  | OpClose i => close_conn v i
  | OpIO i act rb wb =>
      do f <- find_by_index v i;
      match f with
      | Some c => Ok (0, put_slot v i (set_action (set_rbuf (set_wbuf c wb) rb) act),
                      [EvMod (c_desc c) i (c_action c) act])
      | None => Ok (ENOTCONN, v, [])
      end
  end.

(** The descriptors that are open after a log. *)
Definition rmz (d : Z) (l : list Z) : list Z := remove Z.eq_dec d l.
Definition open_ev (l : list Z) (e : cev) : list Z :=
  match e with EvOpen d => d :: l | EvClose d => rmz d l | _ => l end.
Definition opened (log : list cev) : list Z := fold_left open_ev log [].

(** The kernel hands out descriptors that are not open, and not negative; a call gets an
    error code when it fails.  Indices are uint16_t. *)
Definition op_ok (log : list cev) (o : cop) : Prop :=
  match o with
  | OpAccept _ (AccOk d _ _) => 0 <= d /\ ~ In d (opened log)
  | OpConnect _ _ _ (SockOk d _ _) => 0 <= d /\ ~ In d (opened log)
  | OpComplete i _ | OpClose i | OpIO i _ _ _ => 0 <= i < 65536
  | _ => True
  end.
(** The history [ops] continues the log under these rules, and no call is undefined. *)
Fixpoint hist (v : cvec) (log : list cev) (ops : list cop) (v' : cvec) (log' : list cev) : Prop :=
  match ops with
  | [] => v' = v /\ log' = log
  | o :: r => op_ok log o /\
              exists code v1 e1, cstep v o = Ok (code, v1, e1) /\ hist v1 (log ++ e1) r v' log'
  end.

(** A connection is open while it is connecting or connected. *)
Definition is_open (v : cvec) (i : Z) (c : conn) : Prop := slot v i = Ok c /\ c_mode c <> CLOSED.
(** Number of open connections. *)
Definition count_open (v : cvec) : Z := zlen (filter (fun c => negb (c_mode c =? CLOSED)) (v_conns v)).

(** Slot [i] is free; slot [i] is the lowest free one. *)
Definition free_slot (v : cvec) (i : Z) : Prop := exists c, slot v i = Ok c /\ c_desc c = -1.
Definition lowest_free (v : cvec) (i : Z) : Prop :=
  free_slot v i /\ forall j, 0 <= j < i -> ~ free_slot v j.
(** All slots but [i] are the same. *)
Definition same_but (v v' : cvec) (i : Z) : Prop :=
  v_size v' = v_size v /\ forall j, j <> i -> slot v' j = slot v j.

(** setsockopt() failed after accept(). *)
Definition accept_nodelay_fails (o : cop) : bool :=
  match o with OpAccept _ (AccOk _ _ e) => negb (e =? 0) | _ => false end.
(** The pending connection turned out to have failed, or setsockopt() failed on it. *)
Definition complete_fails_late (o : cop) : bool :=
  match o with OpComplete _ (CmpOk a b) => negb ((a =? 0) && (b =? 0)) | _ => false end.

(** A poll set as the user keeps it: descriptors with their connection index.  A call of
    poll_add for a member, poll_modify or poll_remove for a non-member, and close() of a
    member are errors; with [lenient] a removal of a non-member is ignored instead. *)
Definition has (d : Z) (R : list (Z * Z)) : bool := existsb (fun p => fst p =? d) R.
Definition del (d : Z) (R : list (Z * Z)) : list (Z * Z) := filter (fun p => negb (fst p =? d)) R.
Definition hasp (d i : Z) (R : list (Z * Z)) : bool := existsb (fun p => (fst p =? d) && (snd p =? i)) R.
Definition poll_ev (lenient : bool) (R : list (Z * Z)) (e : cev) : option (list (Z * Z)) :=
  match e with
  | EvOpen _ => Some R
  | EvClose d => if has d R then None else Some R
  | EvAdd d i _ => if has d R then None else Some (R ++ [(d, i)])
  | EvMod d i _ _ => if (i =? RMC_LISTEN_INDEX) || hasp d i R then Some R else None
  | EvRem d i => if hasp d i R then Some (del d R) else if lenient then Some R else None
  end.
Fixpoint poll_set (lenient : bool) (R : list (Z * Z)) (log : list cev) : option (list (Z * Z)) :=
  match log with
  | [] => Some R
  | e :: r => match poll_ev lenient R e with Some R' => poll_set lenient R' r | None => None end
  end.

(** A connection whose rings hold nothing, at full capacity. *)
Definition fresh_rings (c : conn) : Prop :=
  (cb_size (c_rbuf c) = RMC_MAX_PACKET /\ cb_start (c_rbuf c) = 0 /\ cb_stop (c_rbuf c) = 0) /\
  (cb_size (c_wbuf c) = RMC_MAX_PACKET /\ cb_start (c_wbuf c) = 0 /\ cb_stop (c_wbuf c) = 0).
