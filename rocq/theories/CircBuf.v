(** CircBuf.v — model of circular_buffer.c / circular_buffer.h.

    The byte array [circ_buf->buffer] is a function from indices to bytes together
    with the capacity [cb_size]; every load and store through a pointer is checked
    against the capacity and is [UB OutOfBounds] outside it.  Pointers into the
    buffer are offsets ([option Z], [None] = NULL).  Simplification: the NULL tests
    on the [circ_buf], segment and target arguments (circular_buffer.c:62-65, 150,
    199, 275-278) are not modelled, all arguments are non-NULL. *)
From Verif Require Import Base.

(** circular_buffer.h:11-24, struct circ_buf_t. *)
Record cbuf := mkCB {
  cb_size  : Z;
  cb_start : Z;
  cb_stop  : Z;
  cb_mem   : Z -> Z
}.

(** circular_buffer.c:28-34, circ_buf_init; [mem] is the prior content of the array. *)
Definition circ_buf_init (size : Z) (mem : Z -> Z) : cbuf := mkCB (u32 size) 0 0 mem.

(** circular_buffer.c:36-44, circ_buf_in_use. *)
Definition circ_buf_in_use (cb : cbuf) : Z :=
  if cb_start cb <=? cb_stop cb then u32 (cb_stop cb - cb_start cb)
  else u32 (cb_size cb - cb_start cb + cb_stop cb).

(** circular_buffer.c:46-50, circ_buf_available. *)
Definition circ_buf_available (cb : cbuf) : Z :=
  u32 (cb_size cb - circ_buf_in_use cb - 1).

(** The four out-parameters of circ_buf_alloc / circ_buf_read_segment
    (circular_buffer.c:54-57): segment pointers and lengths. *)
Record segs := mkSegs {
  seg1     : option Z;
  seg1_len : Z;
  seg2     : option Z;
  seg2_len : Z
}.

(** Assignment to circ_buf->stop_ind. *)
(** circular_buffer.c:80, 95: assignment to stop_ind. *)
Definition set_stop (cb : cbuf) (s : Z) : cbuf :=
  mkCB (cb_size cb) (cb_start cb) s (cb_mem cb).
(** circular_buffer.c:146-184: assignment to start_ind. *)
Definition set_start (cb : cbuf) (s : Z) : cbuf :=
  mkCB (cb_size cb) s (cb_stop cb) (cb_mem cb).

(** circular_buffer.c:52-97, circ_buf_alloc.  [inl e] = error code, nothing changed. *)
Definition circ_buf_alloc (cb : cbuf) (len : Z) : Z + (cbuf * segs) :=
  if circ_buf_available cb <? len then inl ENOMEM                       (* 71-72 *)
  else if len <=? u32 (cb_size cb - cb_stop cb) then                    (* 75 *)
    inr (set_stop cb (u32 (cb_stop cb + len)),                          (* 76-81 *)
         mkSegs (Some (cb_stop cb)) len None 0)
  else
    let l1 := u32 (cb_size cb - cb_stop cb) in                          (* 85-86 *)
    let l2 := u32 (len - l1) in                                         (* 87 *)
    inr (set_stop cb l2, mkSegs (Some (cb_stop cb)) l1 (Some 0) l2).    (* 90-96 *)

(** circular_buffer.c:104-142, circ_buf_trim. *)
Definition circ_buf_trim (cb : cbuf) (target_len : Z) : res cbuf :=
  let in_use := circ_buf_in_use cb in
  if in_use <=? target_len then Ok cb                                   (* 108-109 *)
  else if target_len <? cb_stop cb then                                 (* 122-125 *)
    Ok (set_stop cb (u32 (cb_stop cb - u32 (in_use - target_len))))
  else if cb_size cb =? 0 then UB DivByZero
  else Ok (set_stop cb (u32 (cb_start cb + target_len) mod cb_size cb)). (* 140 *)

(** circular_buffer.c:146-183, circ_buf_free; result: new ring and *in_use. *)
Definition circ_buf_free (cb : cbuf) (size : Z) : res (cbuf * Z) :=
  if size =? 0 then Ok (cb, circ_buf_in_use cb)                         (* 153-157 *)
  else
    let len := circ_buf_in_use cb in                                    (* 159 *)
    if len <=? size then                                                (* 167-174 *)
      Ok (mkCB (cb_size cb) 0 0 (cb_mem cb), 0)
    else if cb_size cb =? 0 then UB DivByZero
    else
      Ok (set_start cb (u32 (cb_start cb + size) mod cb_size cb),       (* 176-177 *)
          u32 (len - size)).                                            (* 179-180 *)

(** memcpy(target, circ_buf->buffer + off, n): checked load of n bytes. *)
(** circular_buffer.c:187-254: circ_buf->buffer[i] as an rvalue. *)
Definition cb_load (cb : cbuf) (off n : Z) : res (list Z) :=
  if (0 <=? off) && (off + n <=? cb_size cb) then
    Ok (map (fun i => cb_mem cb (off + Z.of_nat i)) (seq 0 (Z.to_nat n)))
  else UB OutOfBounds.

(** memcpy(circ_buf->buffer + off, bs, |bs|): checked store. *)
(** circular_buffer.c:104-142 and the callers' memcpy: circ_buf->buffer[i] as an lvalue. *)
Definition cb_store (cb : cbuf) (off : Z) (bs : list Z) : res cbuf :=
  if (0 <=? off) && (off + zlen bs <=? cb_size cb) then
    Ok (mkCB (cb_size cb) (cb_start cb) (cb_stop cb)
          (fun j => if (off <=? j) && (j <? off + zlen bs)
                    then nth (Z.to_nat (j - off)) bs 0 else cb_mem cb j))
  else UB OutOfBounds.

(** Store / load through a segment pointer; NULL is only legal for length 0. *)
(** memcpy into the segments of circ_buf_alloc, as in rmc_pub_write.c:190-215 and rmc_sub_write.c:119-121. *)
Definition seg_store (cb : cbuf) (p : option Z) (bs : list Z) : res cbuf :=
  match p with
  | Some off => cb_store cb off bs
  | None => match bs with [] => Ok cb | _ => UB NullDeref end
  end.
(** The bytes of the segments of circ_buf_read_segment, circular_buffer.c:266-307, as handed to writev() in rmc_protocol.c:42-47. *)
Definition seg_load (cb : cbuf) (p : option Z) (n : Z) : res (list Z) :=
  match p with
  | Some off => cb_load cb off n
  | None => if n =? 0 then Ok [] else UB NullDeref
  end.

(** circular_buffer.c:187-254, circ_buf_read_offset.
    Result: return code and the bytes written to [target] ([*bytes_read] is their number). *)
Definition circ_buf_read_offset (cb : cbuf) (offset size : Z) : res (Z * list Z) :=
  let in_use := circ_buf_in_use cb in                                   (* 194 *)
  if in_use <? offset then Ok (EINVAL, [])                              (* 199-200 *)
  else
    let len := Z.min size (u32 (in_use - offset)) in                    (* 202 *)
    if cb_size cb =? 0 then UB DivByZero else
    let start_ind := u32 (cb_start cb + offset) mod cb_size cb in       (* 204 *)
    if start_ind <=? cb_stop cb then                                    (* 208-215 *)
      do d <- cb_load cb start_ind len; Ok (0, d)
    else
      let segment_len := Z.min (u32 (cb_size cb - start_ind)) len in    (* 220-221 *)
      do d1 <- cb_load cb start_ind segment_len;                        (* 223 *)
      if len =? segment_len then Ok (0, d1)                             (* 228-233 *)
      else
        let len' := u32 (len - segment_len) in                          (* 238 *)
        let offset' := if segment_len <? offset                         (* 239-242 *)
                       then u32 (offset - segment_len) else 0 in
        let segment_len' := Z.min len' (cb_stop cb) in                  (* 244 *)
        do d2 <- cb_load cb offset' segment_len';                       (* 246 *)
        Ok (0, d1 ++ d2).

(** circular_buffer.c:256-262, circ_buf_read. *)
Definition circ_buf_read (cb : cbuf) (size : Z) : res (Z * list Z) :=
  circ_buf_read_offset cb 0 size.

(** circular_buffer.c:266-307, circ_buf_read_segment (always returns 0). *)
Definition circ_buf_read_segment (cb : cbuf) (size : Z) : segs :=
  let len := circ_buf_in_use cb in                                      (* 273 *)
  if cb_stop cb =? cb_start cb then mkSegs None 0 None 0                (* 281-287 *)
  else
    let len := Z.min len size in                                        (* 289 *)
    let first := u32 (cb_size cb - cb_start cb) in
    let l1 := Z.min len first in                                        (* 291-292 *)
    if len <=? first then mkSegs (Some (cb_start cb)) l1 None 0         (* 295-299 *)
    else mkSegs (Some (cb_start cb)) l1 (Some 0) (u32 (len - first)).   (* 301-306 *)

(** Scatter store of [bs] into two segments, as done by readv() on the two segments
    (rmc_protocol.c:208-216) and by the memcpy pairs in the writers: the first
    [seg1_len] bytes go to segment 1, the following ones to segment 2. *)
Definition segs_store (cb : cbuf) (s : segs) (bs : list Z) : res cbuf :=
  do cb1 <- seg_store cb (seg1 s) (ztake (seg1_len s) bs);
  seg_store cb1 (seg2 s) (zdrop (seg1_len s) bs).

(** Gather load of two segments (writev() in rmc_protocol.c:43-50). *)
Definition segs_load (cb : cbuf) (s : segs) : res (list Z) :=
  do d1 <- seg_load cb (seg1 s) (seg1_len s);
  do d2 <- seg_load cb (seg2 s) (seg2_len s);
  Ok (d1 ++ d2).

(** alloc followed by a complete scatter store, the use made of circ_buf_alloc by
    well-behaved callers (rmc_protocol.c:196-216). *)
Definition ring_append (cb : cbuf) (bs : list Z) : res (Z * cbuf) :=
  match circ_buf_alloc cb (zlen bs) with
  | inl e => Ok (e, cb)
  | inr (cb1, s) => do cb2 <- segs_store cb1 s bs; Ok (0, cb2)
  end.
