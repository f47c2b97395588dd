(** SeqList.v — the list operations of rmc_list_template.h on finite sequences
    (head first).  ListHeapProofs.v proves that the pointer code refines these. *)
From Verif Require Import Base.

Section SeqList.
Context {D : Type}.

(** _insert_sorted (rmc_list_template.h:359-379): before the first element y with
    cmp(x, y) >= 0, at the tail if there is none. *)
Fixpoint seq_insert_sorted (cmp : D -> D -> Z) (x : D) (l : list D) : list D :=
  match l with
  | [] => [x]
  | y :: rest => if 0 <=? cmp x y then x :: y :: rest else y :: seq_insert_sorted cmp x rest
  end.

(** _insert_sorted_rev (rmc_list_template.h:381-401): after the last element y with
    cmp(x, y) >= 0, at the head if there is none. *)
Definition seq_insert_sorted_rev (cmp : D -> D -> Z) (x : D) (l : list D) : list D :=
  rev (seq_insert_sorted cmp x (rev l)).

(** _find_node (rmc_list_template.h:306-330) as a split of the sequence: the first
    element with non-zero comparison, unless that comparison is -1. *)
Fixpoint seq_find (cmp : D -> Z) (l : list D) : option D :=
  match l with
  | [] => None
  | y :: rest =>
      if cmp y =? -1 then None
      else if negb (cmp y =? 0) then Some y
      else seq_find cmp rest
  end.

(** _for_each (rmc_list_template.h:280-290). *)
Fixpoint seq_for_each {S} (func : S -> D -> S * bool) (s : S) (l : list D) : S :=
  match l with
  | [] => s
  | y :: rest => let (s', go) := func s y in if go then seq_for_each func s' rest else s'
  end.

End SeqList.
