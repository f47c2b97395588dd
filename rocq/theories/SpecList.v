(** SpecList.v — what a user of the list container sees: a family of finite sequences.
    [seq_step] is the specification; [heap_step] runs the same call on the pointer model. *)
From Verif Require Import Base ListHeap SeqList.

Section SpecList.
Context {D : Type}.
Variable cmp : D -> D -> Z.      (* the user's compare_func *)

(** Calls; [lid] names a list, [i] a node by its position. *)
Inductive lop :=
| LPushHead (lid : nat) (d : D) | LPushTail (lid : nat) (d : D)
| LInsertBefore (lid i : nat) (d : D) | LInsertAfter (lid i : nat) (d : D)
| LDelete (lid i : nat)
| LPopHead (lid : nat) | LPopTail (lid : nat)
| LMoveHead (lid i lid2 : nat)    (* unlink, then push_head_node into lid2 *)
| LMoveTail (lid i lid2 : nat)    (* unlink, then push_tail_node into lid2 *)
| LMoveSorted (lid i lid2 : nat)  (* unlink, then insert_sorted_node into lid2 *)
| LPopHeadNode (lid lid2 : nat)   (* pop_head_node, then push_tail_node into lid2 *)
| LPopTailNode (lid lid2 : nat)   (* pop_tail_node, then push_head_node into lid2 *)
| LEmpty (lid : nat)
| LInsertSorted (lid : nat) (d : D) | LInsertSortedRev (lid : nat) (d : D)
| LSize (lid : nat)
| LFind (lid : nat) (d : D) | LFindRev (lid : nat) (d : D)
| LToList (lid : nat) | LToListRev (lid : nat).  (* for_each / for_each_rev collecting the data *)

Inductive lout :=
| OVoid                       (* done *)
| OMiss                       (* no node at that position / list empty *)
| OData (d : option D)
| OSize (n : Z)
| OAll (l : list D).

Definition setl (m : nat -> list D) (lid : nat) (l : list D) : nat -> list D :=
  fun j => if Nat.eqb j lid then l else m j.

(** Sequence without its i-th element. *)
Definition remove_nth (i : nat) (l : list D) : list D := firstn i l ++ skipn (S i) l.
Definition insert_nth (i : nat) (d : D) (l : list D) : list D := firstn i l ++ d :: skipn i l.

Definition seq_move (m : nat -> list D) (lid i lid2 : nat) (put : D -> list D -> list D)
  : (nat -> list D) * lout :=
  match nth_error (m lid) i with
  | None => (m, OMiss)
  | Some d =>
      let m1 := setl m lid (remove_nth i (m lid)) in
      (setl m1 lid2 (put d (m1 lid2)), OVoid)
  end.

Definition seq_step (m : nat -> list D) (o : lop) : (nat -> list D) * lout :=
  match o with
  | LPushHead lid d => (setl m lid (d :: m lid), OVoid)
  | LPushTail lid d => (setl m lid (m lid ++ [d]), OVoid)
  | LInsertBefore lid i d =>
      if Nat.ltb i (length (m lid)) then (setl m lid (insert_nth i d (m lid)), OVoid) else (m, OMiss)
  | LInsertAfter lid i d =>
      if Nat.ltb i (length (m lid)) then (setl m lid (insert_nth (S i) d (m lid)), OVoid) else (m, OMiss)
  | LDelete lid i =>
      if Nat.ltb i (length (m lid)) then (setl m lid (remove_nth i (m lid)), OVoid) else (m, OMiss)
  | LPopHead lid => match m lid with
                    | [] => (m, OData None)
                    | d :: r => (setl m lid r, OData (Some d))
                    end
  | LPopTail lid => match rev (m lid) with
                    | [] => (m, OData None)
                    | d :: r => (setl m lid (rev r), OData (Some d))
                    end
  | LMoveHead lid i lid2 => seq_move m lid i lid2 (fun d l => d :: l)
  | LMoveTail lid i lid2 => seq_move m lid i lid2 (fun d l => l ++ [d])
  | LMoveSorted lid i lid2 => seq_move m lid i lid2 (seq_insert_sorted cmp)
  | LPopHeadNode lid lid2 => seq_move m lid 0 lid2 (fun d l => l ++ [d])
  | LPopTailNode lid lid2 => seq_move m lid (length (m lid) - 1) lid2 (fun d l => d :: l)
  | LEmpty lid => (setl m lid [], OVoid)
  | LInsertSorted lid d => (setl m lid (seq_insert_sorted cmp d (m lid)), OVoid)
  | LInsertSortedRev lid d => (setl m lid (seq_insert_sorted_rev cmp d (m lid)), OVoid)
  | LSize lid => (m, OSize (zlen (m lid)))
  | LFind lid d => (m, OData (seq_find (cmp d) (m lid)))
  | LFindRev lid d => (m, OData (seq_find (cmp d) (rev (m lid))))
  | LToList lid => (m, OAll (m lid))
  | LToListRev lid => (m, OAll (rev (m lid)))
  end.

Fixpoint seq_run (m : nat -> list D) (ops : list lop) : (nat -> list D) * list lout :=
  match ops with
  | [] => (m, [])
  | o :: rest =>
      let (m1, x) := seq_step m o in
      let (m2, xs) := seq_run m1 rest in (m2, x :: xs)
  end.

(** The same calls on the heap. The user finds the node at position i by walking _next. *)
Fixpoint nth_ptr (h : heap D) (p : option nat) (i : nat) : res (option nat) :=
  match i with
  | O => Ok p
  | S i => do q <- list_next h p; nth_ptr h q i
  end.
Definition at_pos (h : heap D) (lid i : nat) (k : option nat -> res (heap D * lout))
  : res (heap D * lout) :=
  do hd <- list_head h (Some lid);
  do p <- nth_ptr h hd i;
  match p with None => Ok (h, OMiss) | Some _ => k p end.
Definition done (r : res (heap D * option nat)) : res (heap D * lout) :=
  do x <- r; Ok (fst x, OVoid).

Definition heap_step (h : heap D) (o : lop) : res (heap D * lout) :=
  match o with
  | LPushHead lid d => done (push_head h (Some lid) d)
  | LPushTail lid d => done (push_tail h (Some lid) d)
  | LInsertBefore lid i d => at_pos h lid i (fun p => done (insert_before h p d))
  | LInsertAfter lid i d => at_pos h lid i (fun p => done (insert_after h p d))
  | LDelete lid i => at_pos h lid i (fun p => do h' <- delete h p; Ok (h', OVoid))
  | LPopHead lid => do r <- pop_head h (Some lid); Ok (fst r, OData (snd r))
  | LPopTail lid => do r <- pop_tail h (Some lid); Ok (fst r, OData (snd r))
  | LMoveHead lid i lid2 => at_pos h lid i (fun p =>
      do r <- unlink h p; done (push_head_node (fst r) (Some lid2) p))
  | LMoveTail lid i lid2 => at_pos h lid i (fun p =>
      do r <- unlink h p; done (push_tail_node (fst r) (Some lid2) p))
  | LMoveSorted lid i lid2 => at_pos h lid i (fun p =>
      do r <- unlink h p; done (insert_sorted_node (fst r) (Some lid2) p cmp))
  | LPopHeadNode lid lid2 =>
      do r <- pop_head_node h (Some lid);
      match snd r with
      | None => Ok (fst r, OMiss)
      | Some _ => done (push_tail_node (fst r) (Some lid2) (snd r))
      end
  | LPopTailNode lid lid2 =>
      do r <- pop_tail_node h (Some lid);
      match snd r with
      | None => Ok (fst r, OMiss)
      | Some _ => done (push_head_node (fst r) (Some lid2) (snd r))
      end
  | LEmpty lid => do h' <- list_empty h (Some lid); Ok (h', OVoid)
  | LInsertSorted lid d => done (insert_sorted h (Some lid) d cmp)
  | LInsertSortedRev lid d => done (insert_sorted_rev h (Some lid) d cmp)
  | LSize lid => do n <- list_size h (Some lid); Ok (h, OSize n)
  | LFind lid d =>
      do p <- find_node h (Some lid) d cmp;
      match p with
      | None => Ok (h, OData None)
      | Some _ => do n <- get_node h p; Ok (h, OData (Some (n_data (snd n))))
      end
  | LFindRev lid d =>
      do p <- find_node_rev h (Some lid) d cmp;
      match p with
      | None => Ok (h, OData None)
      | Some _ => do n <- get_node h p; Ok (h, OData (Some (n_data (snd n))))
      end
  | LToList lid =>
      do l <- for_each h (Some lid) (fun acc _ d => (acc ++ [d], true)) []; Ok (h, OAll l)
  | LToListRev lid =>
      do l <- for_each_rev h (Some lid) (fun acc _ d => (acc ++ [d], true)) []; Ok (h, OAll l)
  end.

Fixpoint heap_run (h : heap D) (ops : list lop) : res (heap D * list lout) :=
  match ops with
  | [] => Ok (h, [])
  | o :: rest =>
      do r <- heap_step h o;
      do r2 <- heap_run (fst r) rest;
      Ok (fst r2, snd r :: snd r2)
  end.

(** All list names used are below [n]. *)
Definition lop_ok (n : nat) (o : lop) : Prop :=
  match o with
  | LPushHead l _ | LPushTail l _ | LInsertBefore l _ _ | LInsertAfter l _ _ | LDelete l _
  | LPopHead l | LPopTail l | LEmpty l | LInsertSorted l _ | LInsertSortedRev l _
  | LSize l | LFind l _ | LFindRev l _ | LToList l | LToListRev l => (l < n)%nat
  | LMoveHead l _ l2 | LMoveTail l _ l2 | LMoveSorted l _ l2
  | LPopHeadNode l l2 | LPopTailNode l l2 => (l < n)%nat /\ (l2 < n)%nat
  end.

(** A heap in which lists 0 .. n-1 have just been initialised. *)
Fixpoint init_lists (h : heap D) (n : nat) : heap D :=
  match n with
  | O => h
  | S n => list_init (init_lists h n) n
  end.

End SpecList.
Arguments lop : clear implicits.
Arguments lout : clear implicits.
