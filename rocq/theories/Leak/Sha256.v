(** The text of Model/Sha256.v with the recording operations of Ops.v: [if] is [if*],
    and traversals written with pure list functions in the model record their
    length.  Constants, records and functions that neither branch nor index
    (word operations) are the model's own. *)
From Coq Require Import NArith List Bool.
From Verif Require Import Rust.
From Verif.Model Require Import Sha256.
From Verif.Leak Require Import Ops.
Import ListNotations.
Local Open Scope N_scope.

(** src/sha256.rs:127-136 *)
Definition fill_block (input output : list N) : res (list N) :=
  for_range 0 (len output) (fun i output =>
    let* i0 := idx input (i * 4) in
    let* i1 := idx input (i * 4 + 1) in
    let* i2 := idx input (i * 4 + 2) in
    let* i3 := idx input (i * 4 + 3) in
    upd output i
      (N.lor (N.lor (N.lor (shl32 i0 24) (shl32 i1 16)) (shl32 i2 8)) i3)) output.

(** src/sha256.rs:138-147 *)
Definition write_u64_be (data : list N) (value : N) : res (list N) :=
  let* data := upd data 0 (as_u8 (shr value 56)) in
  let* data := upd data 1 (as_u8 (shr value 48)) in
  let* data := upd data 2 (as_u8 (shr value 40)) in
  let* data := upd data 3 (as_u8 (shr value 32)) in
  let* data := upd data 4 (as_u8 (shr value 24)) in
  let* data := upd data 5 (as_u8 (shr value 16)) in
  let* data := upd data 6 (as_u8 (shr value 8)) in
  upd data 7 (as_u8 value).

(** src/sha256.rs:195, 205-209: the message schedule. *)
Definition message_schedule (block : list N) : res (list N) :=
  let w := repeat 0 64 in
  (* w[..16].clone_from_slice(&block[..16]) *)
  let* b16 := slice_to block 16 in
  let* w := with_slice w 0 16 (fun d => copy_from_slice d b16) in
  for_range 16 64 (fun t w =>
    let* w2 := idx w (t - 2) in
    let* w7 := idx w (t - 7) in
    let* w15 := idx w (t - 15) in
    let* w16 := idx w (t - 16) in
    upd w t
      (wrapping_add32 (wrapping_add32 (wrapping_add32 (ssig1 w2) w7) (ssig0 w15)) w16)) w.

(** src/sha256.rs:245-256: the body of the round loop. *)
Definition round_body (w : list N) (t : N) (v : vars) : res vars :=
  let '(a, b, c, d, e, f, g, h) := v in
  let* kt := idx K t in
  let* wt := idx w t in
  let t1 := wrapping_add32 (wrapping_add32 (wrapping_add32
              (wrapping_add32 h (bsig1 e)) (ch e f g)) kt) wt in
  let t2 := wrapping_add32 (bsig0 a) (maj a b c) in
  let h := g in
  let g := f in
  let f := e in
  let e := wrapping_add32 d t1 in
  let d := c in
  let c := b in
  let b := a in
  let a := wrapping_add32 t1 t2 in
  Ret (a, b, c, d, e, f, g, h).

(** src/sha256.rs:187-277.  [self.h] is the only field touched, so the model
    takes and returns it. *)
Definition process_block (sh : list N) (block : list N) : res (list N) :=
  let* w := message_schedule block in
  let* a := idx sh 0 in
  let* b := idx sh 1 in
  let* c := idx sh 2 in
  let* d := idx sh 3 in
  let* e := idx sh 4 in
  let* f := idx sh 5 in
  let* g := idx sh 6 in
  let* h := idx sh 7 in
  let* v := for_range 0 64 (round_body w) (a, b, c, d, e, f, g, h) in
  let '(a, b, c, d, e, f, g, h) := v in
  let* x := idx sh 0 in let* sh := upd sh 0 (wrapping_add32 x a) in
  let* x := idx sh 1 in let* sh := upd sh 1 (wrapping_add32 x b) in
  let* x := idx sh 2 in let* sh := upd sh 2 (wrapping_add32 x c) in
  let* x := idx sh 3 in let* sh := upd sh 3 (wrapping_add32 x d) in
  let* x := idx sh 4 in let* sh := upd sh 4 (wrapping_add32 x e) in
  let* x := idx sh 5 in let* sh := upd sh 5 (wrapping_add32 x f) in
  let* x := idx sh 6 in let* sh := upd sh 6 (wrapping_add32 x g) in
  let* x := idx sh 7 in upd sh 7 (wrapping_add32 x h).

(** src/sha256.rs:285-298: the loop body for one input byte.  The scratch array
    [block] (line 283) is overwritten completely by [fill_block] before each
    use, so each call starts from zeroes here. *)
Definition update_byte (T : target) (b : N) (s : SHA256) : res SHA256 :=
  let* off := urem (sha_length s) BLOCK_SIZE in
  let* buffer := upd (sha_buffer s) off b in
  let* length := uadd T (sha_length s) 1 in
  let* r := urem length BLOCK_SIZE in
  if* negb (r =? 0) then Ret (mkSHA256 (sha_h s) buffer length)
  else
    let* block := fill_block buffer (repeat 0 16) in
    let* h := process_block (sha_h s) block in
    Ret (mkSHA256 h buffer length).

(** src/sha256.rs:282-299 *)
Definition sha256_update (T : target) (s : SHA256) (data : list N) : res SHA256 :=
  for_each data (update_byte T) s.

(** src/sha256.rs:364-371 *)
Definition write_digest (h : list N) : res (list N) :=
  for_range 0 (len h) (fun i out =>
    let* x := idx h i in
    let* out := upd out (i * 4) (as_u8 (shr x 24)) in
    let* out := upd out (i * 4 + 1) (as_u8 (shr x 16)) in
    let* out := upd out (i * 4 + 2) (as_u8 (shr x 8)) in
    upd out (i * 4 + 3) (as_u8 x)) (repeat 0 32).

(** [buffer[i] |= 0x80], src/sha256.rs:343, 358 *)
Definition or_0x80 (buffer : list N) (i : N) : res (list N) :=
  let* x := idx buffer i in upd buffer i (N.lor x 0x80).

(** src/sha256.rs:304-372.  Returns the digest and the mutated state. *)
Definition sha256_digest (T : target) (s : SHA256) : res (list N * SHA256) :=
  let* off := urem (sha_length s) BLOCK_SIZE in
  let* buffer :=
    for_range off (len (sha_buffer s)) (fun i buf => upd buf i 0) (sha_buffer s) in
  let* off9 := uadd T off 9 in
  let has_overflow := BLOCK_SIZE <? off9 in
  let* (h, off, buffer) :=
    (if* has_overflow then
       let* buffer := or_0x80 buffer off in
       let* block := fill_block buffer (repeat 0 16) in
       let* h := process_block (sha_h s) block in
       Ret (h, 0, repeat 0 64)
     else Ret (sha_h s, off, buffer)) in
  let* len_off := usub T (len buffer) 8 in
  let* bits := umul T (sha_length s) 8 in
  let* buffer :=
    with_slice buffer len_off (len buffer) (fun d => write_u64_be d (as_u64 bits)) in
  let* buffer := (if* negb has_overflow then or_0x80 buffer off else Ret buffer) in
  let* block := fill_block buffer (repeat 0 16) in
  let* h := process_block h block in
  let* out := write_digest h in
  Ret (out, mkSHA256 h buffer (sha_length s)).
