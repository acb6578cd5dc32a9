(** Model of asdf_buffer.c. *)
From Coq Require Import List NArith ZArith Arith Bool.
From Verif Require Import Base.
Import ListNotations.
Local Open Scope Z_scope.
Local Open Scope outcome_scope.

(** asdf_config.h 57: ASDF_BUFFER_POOL_SIZE = 128 + 16. *)
Definition pool_size : Z := 144.
(** asdf_buffer.h 38: ASDF_BUFFER_NUM_HANDLES. *)
Definition num_handles : Z := 4.
(** asdf.h 36: ASDF_INVALID_CODE. *)
Definition INVALID : N := 0xA0.
(** asdf_buffer.h 33: ASDF_BUFFER_INVALID. *)
Definition BUFFER_INVALID : Z := -1.

(** asdf_buffer.c 47-53: asdf_buffer_t.  [buf] is an offset into the pool. *)
Record buffer := mkBuffer { b_buf : Z; b_size : Z; b_head : Z; b_tail : Z; b_count : Z }.

(** asdf_buffer.c 57-67: buffer_pool, buffers, buffer_pool_next_available,
    next_handle. *)
Record bufs := mkBufs { pool : list N; buffers : list buffer; pool_next : Z; next_handle : Z }.

(** asdf_buffer.c 57-67: static storage before any call, all zero. *)
Definition bufs_zero : bufs :=
  mkBufs (repeat 0%N 144) (repeat (mkBuffer 0 0 0 0 0) 4) 0 0.

(** asdf_buffer.c 84-88.  The pool and the buffer descriptors keep their old
    contents. *)
Definition buffer_init (b : bufs) : bufs := mkBufs (pool b) (buffers b) 0 0.

(** asdf_buffer.c 104-107. *)
Definition handle_valid (h : Z) (b : bufs) : bool := (0 <=? h) && (h <? next_handle b).

(** Array reads/writes with a C int index (asdf_buffer.c 134-198:
    `buffers[handle]`, `buf[head]`, `buf[tail]`). *)
Definition zget {A} (u : ub) (l : list A) (i : Z) : outcome A :=
  if i <? 0 then Bad u else lget u l (Z.to_nat i).
Definition zset {A} (u : ub) (l : list A) (i : Z) (x : A) : outcome (list A) :=
  if i <? 0 then Bad u else lset u l (Z.to_nat i) x.

(** int arithmetic on a 16-bit target (asdf_buffer.c 131, 140: the room left
    in the pool and the next free place). *)
Definition int16_ok (z : Z) : bool := (-32768 <=? z) && (z <=? 32767).
Definition int16 (z : Z) : outcome Z := if int16_ok z then Ok z else Bad UArith.

(** asdf_buffer.c 126-144.  [size] is the int16_t argument.  Forming
    [&buffer_pool[n]] is only defined for 0 <= n <= 144. *)
Definition buffer_new (size : Z) (b : bufs) : outcome (Z * bufs) :=
  if next_handle b <? num_handles then
    room <- int16 (pool_size - pool_next b) ;;
    if size <=? room then
      let handle := next_handle b in
      if (pool_next b <? 0) || (pool_size <? pool_next b) then Bad UBufOob else
      bs <- zset UBufOob (buffers b) handle (mkBuffer (pool_next b) size 0 0 0) ;;
      nxt <- int16 (pool_next b + size) ;;
      Ok (handle, mkBufs (pool b) bs nxt (handle + 1))
    else Ok (BUFFER_INVALID, b)
  else Ok (BUFFER_INVALID, b).

(** asdf_buffer.c 170, 198: (x + 1) % size stored into a uint8_t. *)
Definition advance (x size : Z) : outcome Z :=
  if size =? 0 then Bad UArith else Ok ((Z.rem (x + 1) size) mod 256).

(** asdf_buffer.c 165-174. *)
Definition buffer_put (h : Z) (code : N) (b : bufs) : outcome bufs :=
  if handle_valid h b then
    d <- zget UBufOob (buffers b) h ;;
    if b_count d <? b_size d then
      p <- zset UBufOob (pool b) (b_buf d + b_head d) code ;;
      hd <- advance (b_head d) (b_size d) ;;
      bs <- zset UBufOob (buffers b) h
              (mkBuffer (b_buf d) (b_size d) hd (b_tail d) ((b_count d + 1) mod 256)) ;;
      Ok (mkBufs p bs (pool_next b) (next_handle b))
    else Ok b
  else Ok b.

(** asdf_buffer.c 193-202. *)
Definition buffer_get (h : Z) (b : bufs) : outcome (N * bufs) :=
  if handle_valid h b then
    d <- zget UBufOob (buffers b) h ;;
    if b_count d =? 0 then Ok (INVALID, b) else
    code <- zget UBufOob (pool b) (b_buf d + b_tail d) ;;
    tl <- advance (b_tail d) (b_size d) ;;
    bs <- zset UBufOob (buffers b) h
            (mkBuffer (b_buf d) (b_size d) (b_head d) tl ((b_count d - 1) mod 256)) ;;
    Ok (code, mkBufs (pool b) bs (pool_next b) (next_handle b))
  else Ok (INVALID, b).
