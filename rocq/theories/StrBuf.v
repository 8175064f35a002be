(* Model of bc_string_t, src/common/utils.c 391-511, with its memory block.
   Lengths are unbounded [nat]: size_t wrap-around of len + 1 is not modelled
   (it needs a block of 2^64 bytes). bc_malloc/bc_realloc abort when memory is
   exhausted, so they always return a block. *)
From Verif Require Import Base Utils.

(* BC_STRING_CHUNK_SIZE, utils.c 4 *)
Definition CHUNK : nat := 128.

(* sb_block: the bytes of the block str->str points at, None for a byte that
   was never written; [] for the NULL pointer. *)
Record strbuf : Type := SB { sb_block : list (option ascii); sb_len : nat; sb_alloc : nat }.

(* memcpy of [x] at offset [off]; undefined outside the block *)
Definition blk_write (blk : list (option ascii)) (off : nat) (x : bytes) : res (list (option ascii)) :=
  if Nat.leb (off + length x) (length blk)
  then Ok (firstn off blk ++ map Some x ++ skipn (off + length x) blk)
  else UB.

(* realloc to [n] bytes *)
Definition blk_realloc (blk : list (option ascii)) (n : nat) : list (option ascii) :=
  firstn n blk ++ repeat None (n - length blk).

(* the growth step shared by append_len (442-446) and append_c (469-473);
   [len'] is the updated str->len *)
Definition sb_grow (b : strbuf) (len' : nat) : strbuf :=
  if Nat.ltb (sb_alloc b) (len' + 1)
  then let a := ((len' + 1) / CHUNK + 1) * CHUNK in SB (blk_realloc (sb_block b) a) len' a
  else SB (sb_block b) len' (sb_alloc b).

(* bc_string_append_len, utils.c 433-450. [suffix] is the buffer from the
   suffix pointer on; copying more than it holds is undefined. *)
Definition sb_append_len (b : strbuf) (suffix : bytes) (len : nat) : res strbuf :=
  if Nat.ltb (length suffix) len then UB
  else
    let old_len := sb_len b in
    let b1 := sb_grow b (old_len + len) in
    do blk1 <- blk_write (sb_block b1) old_len (firstn len suffix) ;
    do blk2 <- blk_write blk1 (sb_len b1) [NUL] ;
    Ok (SB blk2 (sb_len b1) (sb_alloc b1)).

(* bc_string_append, utils.c 453-460; None is a NULL suffix *)
Definition sb_append (b : strbuf) (suffix : option bytes) : res strbuf :=
  let s := match suffix with Some s => cstr s | None => [] end in
  sb_append_len b s (length s).

(* bc_string_append_c, utils.c 463-477 *)
Definition sb_append_c (b : strbuf) (c : ascii) : res strbuf :=
  let old_len := sb_len b in
  let b1 := sb_grow b (old_len + 1) in
  do blk1 <- blk_write (sb_block b1) old_len [c] ;
  do blk2 <- blk_write blk1 (sb_len b1) [NUL] ;
  Ok (SB blk2 (sb_len b1) (sb_alloc b1)).

(* bc_string_append_escaped, utils.c 494-511: the loop over the suffix *)
Fixpoint sb_append_escaped_go (b : strbuf) (esc : bool) (s : bytes) : res strbuf :=
  match s with
  | [] => Ok b
  | c :: r =>
      if (c == BSL) && negb esc then sb_append_escaped_go b true r
      else do b' <- sb_append_c b c ; sb_append_escaped_go b' false r
  end.
Definition sb_append_escaped (b : strbuf) (suffix : option bytes) : res strbuf :=
  match suffix with
  | None => Ok b
  | Some s => sb_append_escaped_go b false (cstr s)
  end.

(* bc_string_new, utils.c 391-403 *)
Definition sb_new : res strbuf := sb_append (SB [] 0 0) (Some []).

(* The operations a caller can apply. [OpPrintf] is bc_string_append_printf,
   480-491: the text produced by vsnprintf, appended as a C string. *)
Inductive sb_op : Type :=
| OpLen (suffix : bytes) (len : nat)
| OpStr (suffix : option bytes)
| OpChar (c : ascii)
| OpPrintf (formatted : bytes)
| OpEscaped (suffix : option bytes).

Definition sb_do (b : strbuf) (o : sb_op) : res strbuf :=
  match o with
  | OpLen s n => sb_append_len b s n
  | OpStr s => sb_append b s
  | OpChar c => sb_append_c b c
  | OpPrintf s => sb_append b (Some s)
  | OpEscaped s => sb_append_escaped b s
  end.

Fixpoint sb_run (b : strbuf) (ops : list sb_op) : res strbuf :=
  match ops with
  | [] => Ok b
  | o :: r => do b' <- sb_do b o ; sb_run b' r
  end.
