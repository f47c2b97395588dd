(** ListHeap.v — pointer-level model of the list template rmc_list_template.h
    (RMC_LIST_IMPL) and of the types in rmc_list.h:15-32.

    A heap holds nodes (addressed by nat) and list headers (addressed by nat).
    malloc hands out addresses never used before ([h_fresh]) whose content is arbitrary
    ([h_junk]); malloc never fails (rmc_list_template.h:16 asserts it).
    Dereferencing NULL is [UB NullDeref], dereferencing a freed or never allocated
    address [UB UseAfterFree], a failing assert() is [Abort].
    Simplification: alloc_node/free_node/user_data are the defaults (malloc/free,
    rmc_list_template.h:13-24), which is what the library passes everywhere (pub.c:48-64,
    sub.c:163-164, rmc_sub_context.c:69-70, rmc_pub_timeout.c:91,162).
    Callbacks (compare_func, func) are pure functions. *)
From Verif Require Import Base.

Section ListHeap.
Context {D : Type}.

(** rmc_list.h:27-32. *)
Record node := mkNode {
  n_data  : D;
  n_next  : option nat;
  n_prev  : option nat;
  n_owner : option nat
}.

(** rmc_list.h:16-25. *)
Record lhdr := mkHdr {
  l_head  : option nat;
  l_tail  : option nat;
  l_count : Z
}.

(** The memory holding the structs of rmc_list.h:16-32. *)
Record heap := mkHeap {
  h_nodes : nat -> option node;
  h_lists : nat -> option lhdr;
  h_fresh : nat;
  h_junk  : nat -> node
}.

(** Functional update at one address. *)
(** A store to one address of that memory (rmc_list.h:16-32). *)
Definition upd {X} (f : nat -> X) (a : nat) (x : X) : nat -> X :=
  fun b => if Nat.eqb b a then x else f b.

(** Pointer dereference. *)
(** A dereference of a node pointer, e.g. rmc_list_template.h:83. *)
Definition get_node (h : heap) (p : option nat) : res (nat * node) :=
  match p with
  | None => UB NullDeref
  | Some a => match h_nodes h a with Some n => Ok (a, n) | None => UB UseAfterFree end
  end.
(** A dereference of a list pointer, e.g. rmc_list_template.h:87. *)
Definition get_list (h : heap) (p : option nat) : res (nat * lhdr) :=
  match p with
  | None => UB NullDeref
  | Some a => match h_lists h a with Some n => Ok (a, n) | None => UB UseAfterFree end
  end.

(** A store to a node, e.g. rmc_list_template.h:83. *)
Definition put_node (h : heap) (a : nat) (n : node) : heap :=
  mkHeap (upd (h_nodes h) a (Some n)) (h_lists h) (h_fresh h) (h_junk h).
(** A store to a list header, e.g. rmc_list_template.h:90. *)
Definition put_list (h : heap) (a : nat) (l : lhdr) : heap :=
  mkHeap (h_nodes h) (upd (h_lists h) a (Some l)) (h_fresh h) (h_junk h).

(** p->next = x, p->prev = x, ...: load, modify, store. *)
(** rmc_list_template.h:83: node->next = x. *)
Definition set_next (h : heap) (p : option nat) (x : option nat) : res heap :=
  do r <- get_node h p;
  Ok (put_node h (fst r) (mkNode (n_data (snd r)) x (n_prev (snd r)) (n_owner (snd r)))).
(** rmc_list_template.h:84: node->prev = x. *)
Definition set_prev (h : heap) (p : option nat) (x : option nat) : res heap :=
  do r <- get_node h p;
  Ok (put_node h (fst r) (mkNode (n_data (snd r)) (n_next (snd r)) x (n_owner (snd r)))).
(** rmc_list_template.h:85: node->owner = x. *)
Definition set_owner (h : heap) (p : option nat) (x : option nat) : res heap :=
  do r <- get_node h p;
  Ok (put_node h (fst r) (mkNode (n_data (snd r)) (n_next (snd r)) (n_prev (snd r)) x)).
(** rmc_list_template.h:99-106: node->data = x. *)
Definition set_data (h : heap) (p : option nat) (x : D) : res heap :=
  do r <- get_node h p;
  Ok (put_node h (fst r) (mkNode x (n_next (snd r)) (n_prev (snd r)) (n_owner (snd r)))).
(** rmc_list_template.h:90: list->head = x. *)
Definition set_head (h : heap) (p : option nat) (x : option nat) : res heap :=
  do r <- get_list h p; Ok (put_list h (fst r) (mkHdr x (l_tail (snd r)) (l_count (snd r)))).
(** rmc_list_template.h:78-97, 108-129: list->tail = x. *)
Definition set_tail (h : heap) (p : option nat) (x : option nat) : res heap :=
  do r <- get_list h p; Ok (put_list h (fst r) (mkHdr (l_head (snd r)) x (l_count (snd r)))).
(** rmc_list_template.h:78-97, 199-220: list->elem_count = x. *)
Definition set_count (h : heap) (p : option nat) (x : Z) : res heap :=
  do r <- get_list h p; Ok (put_list h (fst r) (mkHdr (l_head (snd r)) (l_tail (snd r)) (u32 x))).

(** Pointer comparison, e.g. rmc_list_template.h:146. *)
Definition ptr_eqb (p q : option nat) : bool :=
  match p, q with
  | None, None => true
  | Some a, Some b => Nat.eqb a b
  | _, _ => false
  end.
(** Pointer test, e.g. rmc_list_template.h:87. *)
Definition is_null (p : option nat) : bool := match p with None => true | _ => false end.

(** assert(e) *)
(** assert(), e.g. rmc_list_template.h:80-81. *)
Definition assert_ (b : bool) : res unit := if b then Ok tt else Abort.

(** rmc_list_template.h:13-18, alloc_node (malloc). *)
Definition alloc_node (h : heap) : heap * option nat :=
  let a := h_fresh h in
  (mkHeap (upd (h_nodes h) a (Some (h_junk h a))) (h_lists h) (S a) (h_junk h), Some a).

(** rmc_list_template.h:20-24, free_node. *)
Definition free_node (h : heap) (p : option nat) : res heap :=
  do _ <- assert_ (negb (is_null p));
  do r <- get_node h p;     (* free() of a non-allocated pointer is undefined *)
  Ok (mkHeap (upd (h_nodes h) (fst r) None) (h_lists h) (h_fresh h) (h_junk h)).

(** rmc_list_template.h:26-37, _init, at list address [lid] (storage supplied by the caller). *)
Definition list_init (h : heap) (lid : nat) : heap := put_list h lid (mkHdr None None 0).

(** rmc_list_template.h:39-75: _head, _tail, _prev, _next, _size. *)
Definition list_head (h : heap) (l : option nat) : res (option nat) :=
  do _ <- assert_ (negb (is_null l)); do r <- get_list h l; Ok (l_head (snd r)).
(** rmc_list_template.h:46-51, _tail. *)
Definition list_tail (h : heap) (l : option nat) : res (option nat) :=
  do _ <- assert_ (negb (is_null l)); do r <- get_list h l; Ok (l_tail (snd r)).
(** rmc_list_template.h:53-59, _prev. *)
Definition list_prev (h : heap) (p : option nat) : res (option nat) :=
  match p with None => Ok None | _ => do r <- get_node h p; Ok (n_prev (snd r)) end.
(** rmc_list_template.h:61-68, _next. *)
Definition list_next (h : heap) (p : option nat) : res (option nat) :=
  match p with None => Ok None | _ => do r <- get_node h p; Ok (n_next (snd r)) end.
(** rmc_list_template.h:70-75, _size. *)
Definition list_size (h : heap) (l : option nat) : res Z :=
  do _ <- assert_ (negb (is_null l)); do r <- get_list h l; Ok (l_count (snd r)).

(** rmc_list_template.h:78-97, _push_head_node. *)
Definition push_head_node (h : heap) (owner p : option nat) : res (heap * option nat) :=
  do _ <- assert_ (negb (is_null owner));                    (* 80 *)
  do _ <- assert_ (negb (is_null p));                        (* 81 *)
  do o <- get_list h owner;
  do h <- set_next h p (l_head (snd o));                     (* 83 *)
  do h <- set_prev h p None;                                 (* 84 *)
  do h <- set_owner h p owner;                               (* 85 *)
  do o <- get_list h owner;
  do h <- (if is_null (l_head (snd o)) then Ok h             (* 87-88 *)
           else set_prev h (l_head (snd o)) p);
  do h <- set_head h owner p;                                (* 90 *)
  do o <- get_list h owner;
  do h <- (if is_null (l_tail (snd o)) then set_tail h owner p else Ok h); (* 92-93 *)
  do o <- get_list h owner;
  do h <- set_count h owner (l_count (snd o) + 1);           (* 95 *)
  Ok (h, p).

(** rmc_list_template.h:99-106, _push_head. *)
Definition push_head (h : heap) (l : option nat) (d : D) : res (heap * option nat) :=
  do _ <- get_list h l;
  let (h, p) := alloc_node h in
  do h <- set_data h p d;
  push_head_node h l p.

(** rmc_list_template.h:108-129, _push_tail_node. *)
Definition push_tail_node (h : heap) (owner p : option nat) : res (heap * option nat) :=
  do _ <- assert_ (negb (is_null owner));                    (* 110 *)
  do _ <- assert_ (negb (is_null p));                        (* 111-112 *)
  do h <- set_next h p None;                                 (* 114 *)
  do o <- get_list h owner;
  do h <- set_prev h p (l_tail (snd o));                     (* 115 *)
  do h <- set_owner h p owner;                               (* 116 *)
  do o <- get_list h owner;
  do h <- (if is_null (l_tail (snd o)) then Ok h             (* 118-119 *)
           else set_next h (l_tail (snd o)) p);
  do h <- set_tail h owner p;                                (* 122 *)
  do o <- get_list h owner;
  do h <- (if is_null (l_head (snd o)) then set_head h owner p else Ok h); (* 124-125 *)
  do o <- get_list h owner;
  do h <- set_count h owner (l_count (snd o) + 1);           (* 127 *)
  Ok (h, p).

(** rmc_list_template.h:131-138, _push_tail. *)
Definition push_tail (h : heap) (l : option nat) (d : D) : res (heap * option nat) :=
  do _ <- get_list h l;
  let (h, p) := alloc_node h in
  do h <- set_data h p d;
  push_tail_node h l p.

(** rmc_list_template.h:140-160, _insert_before_node. *)
Definition insert_before_node (h : heap) (next p : option nat) : res (heap * option nat) :=
  do _ <- assert_ (negb (is_null p));                        (* 142 *)
  do _ <- assert_ (negb (is_null next));                     (* 143 *)
  do nx <- get_node h next;
  do _ <- assert_ (negb (is_null (n_owner (snd nx))));       (* 144 *)
  do hd <- list_head h (n_owner (snd nx));
  if ptr_eqb next hd then push_head_node h (n_owner (snd nx)) p   (* 146-147 *)
  else
    do h <- set_owner h p (n_owner (snd nx));                (* 150 *)
    do nx <- get_node h next;
    do h <- set_prev h p (n_prev (snd nx));                  (* 151 *)
    do nd <- get_node h p;
    do h <- set_next h (n_prev (snd nd)) p;                  (* 153 *)
    do h <- set_prev h next p;                               (* 155 *)
    do h <- set_next h p next;                               (* 156 *)
    do nd <- get_node h p;
    do o <- get_list h (n_owner (snd nd));
    do h <- set_count h (n_owner (snd nd)) (l_count (snd o) + 1);   (* 158 *)
    Ok (h, p).

(** rmc_list_template.h:162-168, _insert_before. *)
Definition insert_before (h : heap) (next : option nat) (d : D) : res (heap * option nat) :=
  do nx <- get_node h next;
  do _ <- get_list h (n_owner (snd nx));
  let (h, p) := alloc_node h in
  do h <- set_data h p d;
  insert_before_node h next p.

(** rmc_list_template.h:170-188, _insert_after_node. *)
Definition insert_after_node (h : heap) (prev p : option nat) : res (heap * option nat) :=
  do _ <- assert_ (negb (is_null prev));                     (* 172 *)
  do pv <- get_node h prev;
  do _ <- assert_ (negb (is_null (n_owner (snd pv))));       (* 173 *)
  do tl <- list_tail h (n_owner (snd pv));
  if ptr_eqb prev tl then push_tail_node h (n_owner (snd pv)) p   (* 175-176 *)
  else
    do h <- set_owner h p (n_owner (snd pv));                (* 178 *)
    do pv <- get_node h prev;
    do h <- set_next h p (n_next (snd pv));                  (* 179 *)
    do nd <- get_node h p;
    do h <- set_prev h (n_next (snd nd)) p;                  (* 181 *)
    do h <- set_next h prev p;                               (* 183 *)
    do h <- set_prev h p prev;                               (* 184 *)
    do nd <- get_node h p;
    do o <- get_list h (n_owner (snd nd));
    do h <- set_count h (n_owner (snd nd)) (l_count (snd o) + 1);   (* 186 *)
    Ok (h, p).

(** rmc_list_template.h:190-196, _insert_after. *)
Definition insert_after (h : heap) (prev : option nat) (d : D) : res (heap * option nat) :=
  do pv <- get_node h prev;
  do _ <- get_list h (n_owner (snd pv));
  let (h, p) := alloc_node h in
  do h <- set_data h p d;
  insert_after_node h prev p.

(** rmc_list_template.h:199-219, _unlink. *)
Definition unlink (h : heap) (p : option nat) : res (heap * option nat) :=
  do _ <- assert_ (negb (is_null p));                        (* 201 *)
  do nd <- get_node h p;
  do _ <- assert_ (negb (is_null (n_owner (snd nd))));       (* 202 *)
  do h <- (if is_null (n_prev (snd nd)) then Ok h            (* 204-205 *)
           else set_next h (n_prev (snd nd)) (n_next (snd nd)));
  do nd <- get_node h p;
  do h <- (if is_null (n_next (snd nd)) then Ok h            (* 207-208 *)
           else set_prev h (n_next (snd nd)) (n_prev (snd nd)));
  do nd <- get_node h p;
  let owner := n_owner (snd nd) in
  do o <- get_list h owner;
  do h <- (if ptr_eqb (l_head (snd o)) p                     (* 210-211 *)
           then set_head h owner (n_next (snd nd)) else Ok h);
  do o <- get_list h owner;
  do h <- (if ptr_eqb (l_tail (snd o)) p                     (* 213-214 *)
           then set_tail h owner (n_prev (snd nd)) else Ok h);
  do o <- get_list h owner;
  do h <- set_count h owner (l_count (snd o) - 1);           (* 216 *)
  do h <- set_owner h p None;                                (* 217 *)
  Ok (h, p).

(** rmc_list_template.h:222-227, _delete. *)
Definition delete (h : heap) (p : option nat) : res heap :=
  do _ <- get_node h p;
  do r <- unlink h p;
  free_node (fst r) p.

(** rmc_list_template.h:230-238, _pop_head_node. *)
Definition pop_head_node (h : heap) (l : option nat) : res (heap * option nat) :=
  do _ <- assert_ (negb (is_null l));
  do o <- get_list h l;
  if is_null (l_head (snd o)) then Ok (h, None) else unlink h (l_head (snd o)).

(** rmc_list_template.h:240-252, _pop_head; [None] = returned 0. *)
Definition pop_head (h : heap) (l : option nat) : res (heap * option D) :=
  do _ <- assert_ (negb (is_null l));
  do o <- get_list h l;
  if is_null (l_head (snd o)) then Ok (h, None)
  else
    do nd <- get_node h (l_head (snd o));
    do h' <- delete h (l_head (snd o));
    Ok (h', Some (n_data (snd nd))).

(** rmc_list_template.h:255-266, _pop_tail. *)
Definition pop_tail (h : heap) (l : option nat) : res (heap * option D) :=
  do _ <- assert_ (negb (is_null l));
  do o <- get_list h l;
  if is_null (l_tail (snd o)) then Ok (h, None)
  else
    do nd <- get_node h (l_tail (snd o));
    do h' <- delete h (l_tail (snd o));
    Ok (h', Some (n_data (snd nd))).

(** rmc_list_template.h:268-277, _pop_tail_node. *)
Definition pop_tail_node (h : heap) (l : option nat) : res (heap * option nat) :=
  do _ <- assert_ (negb (is_null l));
  do o <- get_list h l;
  if is_null (l_tail (snd o)) then Ok (h, None) else unlink h (l_tail (snd o)).

(** Number of node addresses handed out so far; a pointer walk longer than this has
    visited some node twice and, the heap being unchanged, never ends. *)
(** Bound on the walks of rmc_list_template.h:280-400. *)
Definition walk_fuel (h : heap) : nat := S (h_fresh h).

(** rmc_list_template.h:280-290, _for_each, and 293-303, _for_each_rev ([fwd] = false).
    [func] gets the node address and data and an accumulator; [false] stops the walk. *)
Fixpoint for_each_loop {S} (fuel : nat) (fwd : bool) (func : S -> nat -> D -> S * bool)
         (h : heap) (p : option nat) (s : S) : res S :=
  match fuel with
  | O => Hang
  | Datatypes.S fuel =>
      match p with
      | None => Ok s
      | Some _ =>
          do nd <- get_node h p;
          let (s', go) := func s (fst nd) (n_data (snd nd)) in
          if go then for_each_loop fuel fwd func h
                       (if fwd then n_next (snd nd) else n_prev (snd nd)) s'
          else Ok s'
      end
  end.
(** rmc_list_template.h:280-291, _for_each. *)
Definition for_each {S} (h : heap) (l : option nat) (func : S -> nat -> D -> S * bool) (s : S) : res S :=
  do _ <- assert_ (negb (is_null l));
  do o <- get_list h l;
  for_each_loop (walk_fuel h) true func h (l_head (snd o)) s.
(** rmc_list_template.h:293-304, _for_each_rev. *)
Definition for_each_rev {S} (h : heap) (l : option nat) (func : S -> nat -> D -> S * bool) (s : S) : res S :=
  do _ <- assert_ (negb (is_null l));
  do o <- get_list h l;
  for_each_loop (walk_fuel h) false func h (l_tail (snd o)) s.

(** rmc_list_template.h:306-330, _find_node, and 332-356, _find_node_rev. *)
Fixpoint find_loop (fuel : nat) (fwd : bool) (cmp : D -> Z) (h : heap) (p : option nat)
  : res (option nat) :=
  match fuel with
  | O => Hang
  | Datatypes.S fuel =>
      match p with
      | None => Ok None
      | Some _ =>
          do nd <- get_node h p;
          let r := cmp (n_data (snd nd)) in
          if r =? -1 then Ok None
          else if negb (r =? 0) then Ok p
          else find_loop fuel fwd cmp h (if fwd then n_next (snd nd) else n_prev (snd nd))
      end
  end.
(** rmc_list_template.h:306-330, _find_node. *)
Definition find_node (h : heap) (l : option nat) (d : D) (cmp : D -> D -> Z) : res (option nat) :=
  do hd <- list_head h l; find_loop (walk_fuel h) true (cmp d) h hd.
(** rmc_list_template.h:332-357, _find_node_rev. *)
Definition find_node_rev (h : heap) (l : option nat) (d : D) (cmp : D -> D -> Z) : res (option nat) :=
  do tl <- list_tail h l; find_loop (walk_fuel h) false (cmp d) h tl.

(** First node p in walking direction with cmp(new, p) >= 0 (loops 371-376 and 393-398). *)
(** The loops of rmc_list_template.h:359-379 and 381-402. *)
Fixpoint ge_loop (fuel : nat) (fwd : bool) (cmp : D -> Z) (h : heap) (p : option nat)
  : res (option nat) :=
  match fuel with
  | O => Hang
  | Datatypes.S fuel =>
      match p with
      | None => Ok None
      | Some _ =>
          do nd <- get_node h p;
          if 0 <=? cmp (n_data (snd nd)) then Ok p
          else ge_loop fuel fwd cmp h (if fwd then n_next (snd nd) else n_prev (snd nd))
      end
  end.

(** rmc_list_template.h:359-379, _insert_sorted_node. *)
Definition insert_sorted_node (h : heap) (l p : option nat) (cmp : D -> D -> Z)
  : res (heap * option nat) :=
  do hd <- list_head h l;
  do nw <- get_node h p;
  do q <- ge_loop (walk_fuel h) true (cmp (n_data (snd nw))) h hd;
  match q with
  | Some _ => insert_before_node h q p
  | None => push_tail_node h l p
  end.

(** rmc_list_template.h:381-401, _insert_sorted_node_rev. *)
Definition insert_sorted_node_rev (h : heap) (l p : option nat) (cmp : D -> D -> Z)
  : res (heap * option nat) :=
  do tl <- list_tail h l;
  do nw <- get_node h p;
  do q <- ge_loop (walk_fuel h) false (cmp (n_data (snd nw))) h tl;
  match q with
  | Some _ => insert_after_node h q p
  | None => push_head_node h l p
  end.

(** rmc_list_template.h:404-420, _insert_sorted. *)
Definition insert_sorted (h : heap) (l : option nat) (d : D) (cmp : D -> D -> Z)
  : res (heap * option nat) :=
  do _ <- assert_ (negb (is_null l));
  do _ <- get_list h l;
  let (h, p) := alloc_node h in
  do h <- set_data h p d;
  insert_sorted_node h l p cmp.

(** rmc_list_template.h:422-437, _insert_sorted_rev. *)
Definition insert_sorted_rev (h : heap) (l : option nat) (d : D) (cmp : D -> D -> Z)
  : res (heap * option nat) :=
  do _ <- assert_ (negb (is_null l));
  do _ <- get_list h l;
  let (h, p) := alloc_node h in
  do h <- set_data h p d;
  insert_sorted_node_rev h l p cmp.

(** rmc_list_template.h:439-445, _empty. *)
Fixpoint empty_loop (fuel : nat) (h : heap) (l : option nat) : res heap :=
  match fuel with
  | O => Hang
  | Datatypes.S fuel =>
      do n <- list_size h l;
      if n =? 0 then Ok h
      else
        do o <- get_list h l;
        do h' <- delete h (l_head (snd o));
        empty_loop fuel h' l
  end.
(** rmc_list_template.h:439-445, _empty. *)
Definition list_empty (h : heap) (l : option nat) : res heap :=
  do _ <- assert_ (negb (is_null l));
  empty_loop (walk_fuel h) h l.

End ListHeap.
Arguments node : clear implicits.
Arguments heap : clear implicits.
