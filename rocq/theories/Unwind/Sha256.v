(** /repo/src/sha256.rs again, writing to [self] in the order of the source; see
    Unwind/Mem.v.  [Proofs/Unwind.v] shows that outcomes are those of
    Model/Sha256.v. *)
From Coq Require Import NArith List.
From Verif Require Import Rust.
From Verif.Model Require Import Sha256.
From Verif.Unwind Require Import Mem.
Import ListNotations.
Local Open Scope N_scope.

(** [self.h], [self.buffer], [self.length] = ... *)
Definition set_h (h : list N) : prog SHA256 unit :=
  let! s := get in put (mkSHA256 h (sha_buffer s) (sha_length s)).
Definition set_buffer (b : list N) : prog SHA256 unit :=
  let! s := get in put (mkSHA256 (sha_h s) b (sha_length s)).
Definition set_length (n : N) : prog SHA256 unit :=
  let! s := get in put (mkSHA256 (sha_h s) (sha_buffer s) n).
(** [self.h[i] = wrapping_sum!(self.h[i], v)], src/sha256.rs:269-276 *)
Definition add_h (i v : N) : prog SHA256 unit :=
  let! s := get in
  let! x := lift (idx (sha_h s) i) in
  let! h := lift (upd (sha_h s) i (wrapping_add32 x v)) in
  set_h h.
(** [self.buffer[i] = v], [self.buffer[i] |= 0x80] *)
Definition buffer_put (i v : N) : prog SHA256 unit :=
  let! s := get in
  let! b := lift (upd (sha_buffer s) i v) in
  set_buffer b.
Definition buffer_or_0x80 (i : N) : prog SHA256 unit :=
  let! s := get in
  let! b := lift (or_0x80 (sha_buffer s) i) in
  set_buffer b.

(** src/sha256.rs:187-277 *)
Definition process_block (block : list N) : prog SHA256 unit :=
  let! w := lift (message_schedule block) in
  let! s := get in
  let! a := lift (idx (sha_h s) 0) in
  let! b := lift (idx (sha_h s) 1) in
  let! c := lift (idx (sha_h s) 2) in
  let! d := lift (idx (sha_h s) 3) in
  let! e := lift (idx (sha_h s) 4) in
  let! f := lift (idx (sha_h s) 5) in
  let! g := lift (idx (sha_h s) 6) in
  let! h := lift (idx (sha_h s) 7) in
  let! v := lift (Rust.for_range 0 64 (round_body w) (a, b, c, d, e, f, g, h)) in
  let '(a, b, c, d, e, f, g, h) := v in
  let! _ := add_h 0 a in
  let! _ := add_h 1 b in
  let! _ := add_h 2 c in
  let! _ := add_h 3 d in
  let! _ := add_h 4 e in
  let! _ := add_h 5 f in
  let! _ := add_h 6 g in
  add_h 7 h.

(** src/sha256.rs:285-298 *)
Definition update_byte (T : target) (b : N) : prog SHA256 unit :=
  let! s := get in
  let! off := lift (urem (sha_length s) BLOCK_SIZE) in
  let! _ := buffer_put off b in
  let! n := lift (uadd T (sha_length s) 1) in
  let! _ := set_length n in
  let! s := get in
  let! r := lift (urem (sha_length s) BLOCK_SIZE) in
  if negb (r =? 0) then ret tt
  else
    let! block := lift (fill_block (sha_buffer s) (repeat 0 16)) in
    process_block block.

(** src/sha256.rs:282-299 *)
Definition update (T : target) (data : list N) : prog SHA256 unit := for_each data (update_byte T).

(** src/sha256.rs:304-372.  The eight assignments of [write_u64_be] (lines 138-147)
    are one write here: on eight bytes none of them can panic. *)
Definition digest (T : target) : prog SHA256 (list N) :=
  let! s := get in
  let! off := lift (urem (sha_length s) BLOCK_SIZE) in
  let! _ := for_range off (len (sha_buffer s)) (fun i => buffer_put i 0) in
  let! off9 := lift (uadd T off 9) in
  let has_overflow := BLOCK_SIZE <? off9 in
  let! off :=
    (if has_overflow then
       let! _ := buffer_or_0x80 off in
       let! s := get in
       let! block := lift (fill_block (sha_buffer s) (repeat 0 16)) in
       let! _ := process_block block in
       let! _ := set_buffer (repeat 0 64) in
       ret 0
     else ret off) in
  let! s := get in
  let! len_off := lift (usub T (len (sha_buffer s)) 8) in
  let! bits := lift (umul T (sha_length s) 8) in
  (* Rust evaluates the arguments of [write_u64_be] first, so the slice is taken
     before the product is computed; both orders leave the same memory *)
  let! b := lift (with_slice (sha_buffer s) len_off (len (sha_buffer s))
                    (fun d => write_u64_be d (as_u64 bits))) in
  let! _ := set_buffer b in
  let! _ := (if negb has_overflow then buffer_or_0x80 off else ret tt) in
  let! s := get in
  let! block := lift (fill_block (sha_buffer s) (repeat 0 16)) in
  let! _ := process_block block in
  let! s := get in
  lift (write_digest (sha_h s)).
