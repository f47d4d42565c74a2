(** The text of Model/Aes.v with the recording operations of Ops.v: [if] is [if*],
    and traversals written with pure list functions in the model record their
    length.  Constants, records and functions that neither branch nor index
    (word operations) are the model's own. *)
From Coq Require Import NArith List Bool.
From Verif Require Import Rust.
From Verif.Model Require Import Aes.
From Verif.Leak Require Import Ops.
Import ListNotations.
Local Open Scope N_scope.

(** src/aes.rs:74-80 *)
Definition double (b : N) : res N :=
  if* N.land b 0x80 =? 0 then Ret (shl8 b 1) else Ret (N.lxor (shl8 b 1) 0x1b).

(** src/aes.rs:83-94.  Loop state: (by, res, power); one unit of fuel per bit of
    [by]. *)
Definition mul (b by_ : N) : res N :=
  let* (_, r, _) :=
    while_loop (N.size_nat by_) (fun '(by_, _, _) => negb (by_ =? 0))
      (fun '(by_, r, power) =>
         let* r := (if* negb (N.land by_ 1 =? 0) then Ret (N.lxor r power) else Ret r) in
         let* power := double power in
         Ret (shr by_ 1, r, power))
      (by_, 0, b) in
  Ret r.

(** src/aes.rs:96-106 *)
Definition sub_word (b : N) : res N :=
  let b0 := shr b 24 in
  let b1 := N.land (shr b 16) 0xff in
  let b2 := N.land (shr b 8) 0xff in
  let b3 := N.land b 0xff in
  let* s0 := idx SBOX b0 in
  let* s1 := idx SBOX b1 in
  let* s2 := idx SBOX b2 in
  let* s3 := idx SBOX b3 in
  Ret (N.lor (N.lor (N.lor (shl32 s0 24) (shl32 s1 16)) (shl32 s2 8)) s3).

(** src/aes.rs:112-160.  The two [while] loops count [i] up by one to a fixed
    bound, so they are counted loops here. *)
Definition expand_key (key : list N) (round_count : N) : res (list N) :=
  let nk := len key / 4 in
  let* w := for_range 0 nk (fun i w =>
    let* k0 := idx key (4 * i) in
    let* k1 := idx key (4 * i + 1) in
    let* k2 := idx key (4 * i + 2) in
    let* k3 := idx key (4 * i + 3) in
    Ret (w ++ [N.lor (N.lor (N.lor (shl32 k0 24) (shl32 k1 16)) (shl32 k2 8)) k3]))
    [] in
  for_range nk (NB * (round_count + 1)) (fun i w =>
    let* temp := idx w (i - 1) in
    let* m := urem i nk in
    let* temp :=
      (if* m =? 0 then
         let* q := udiv i nk in
         let* s := sub_word (rot_word temp) in
         let* rc := idx RCON (q - 1) in
         Ret (N.lxor s rc)
       else if* (6 <? nk) && (m =? 4) then sub_word temp
       else Ret temp)%bool in
    let* prev := idx w (i - nk) in
    Ret (w ++ [N.lxor prev temp])) w.

(** src/aes.rs:169-176.  [s.iter_mut().zip(round_key)]: columns without a key
    word are left alone. *)
Definition add_round_key_col (col : list N) (key : N) : res (list N) :=
  match col with
  | [c0; c1; c2; c3] =>
      Ret [N.lxor c0 (as_u8 (shr key 24));
           N.lxor c1 (as_u8 (N.land (shr key 16) 0xff));
           N.lxor c2 (as_u8 (N.land (shr key 8) 0xff));
           N.lxor c3 (as_u8 (N.land key 0xff))]
  | _ => Panic
  end.
Fixpoint add_round_key (s : Block) (round_key : list N) : res Block :=
  match s, round_key with
  | col :: s', key :: rk' =>
      let* _ := emit (Branch true) in
      let* col := add_round_key_col col key in
      let* s' := add_round_key s' rk' in
      Ret (col :: s')
  | _, _ => let* _ := emit (Branch false) in Ret s
  end.

(** src/aes.rs:178-184, generic in the trait's [lookup_sbox] *)
Definition sub_bytes (lookup_sbox : N -> res N) (s : Block) : res Block :=
  map_res (map_res lookup_sbox) s.

(** src/aes.rs:186-190, generic in the trait's [mix_column] *)
Definition mix_columns (mix_column : list N -> res (list N)) (s : Block) : res Block :=
  map_res mix_column s.

(** src/aes.rs:197-199 *)
Definition enc_lookup_sbox (b : N) : res N := idx SBOX b.

(** src/aes.rs:201-208 *)
Definition enc_mix_column (col : list N) : res (list N) :=
  match col with
  | [c0; c1; c2; c3] =>
      let* a02 := mul c0 2 in let* a13 := mul c1 3 in
      let* a12 := mul c1 2 in let* a23 := mul c2 3 in
      let* a22 := mul c2 2 in let* a33 := mul c3 3 in
      let* a32 := mul c3 2 in let* a03 := mul c0 3 in
      Ret [N.lxor (N.lxor (N.lxor a02 a13) c2) c3;
           N.lxor (N.lxor (N.lxor a12 a23) c3) c0;
           N.lxor (N.lxor (N.lxor a22 a33) c0) c1;
           N.lxor (N.lxor (N.lxor a32 a03) c1) c2]
  | _ => Panic
  end.

(** src/aes.rs:210-217 *)
Definition enc_shift_rows (s : Block) : res Block :=
  match s with
  | [[s00; s01; s02; s03]; [s10; s11; s12; s13];
     [s20; s21; s22; s23]; [s30; s31; s32; s33]] =>
      Ret [[s00; s11; s22; s33];
           [s10; s21; s32; s03];
           [s20; s31; s02; s13];
           [s30; s01; s12; s23]]
  | _ => Panic
  end.

(** src/aes.rs:221-223 *)
Definition dec_lookup_sbox (b : N) : res N := idx INV_SBOX b.

(** One output byte of src/aes.rs:227-230:
    [mul(a, 0x0e) ^ mul(b, 0x0b) ^ mul(c, 0x0d) ^ mul(d, 0x09)]. *)
Definition dec_mix_byte (a b c d : N) : res N :=
  let* x := mul a 0x0e in let* y := mul b 0x0b in
  let* z := mul c 0x0d in let* w := mul d 0x09 in
  Ret (N.lxor (N.lxor (N.lxor x y) z) w).

(** src/aes.rs:225-232 *)
Definition dec_mix_column (col : list N) : res (list N) :=
  match col with
  | [c0; c1; c2; c3] =>
      let* r0 := dec_mix_byte c0 c1 c2 c3 in
      let* r1 := dec_mix_byte c1 c2 c3 c0 in
      let* r2 := dec_mix_byte c2 c3 c0 c1 in
      let* r3 := dec_mix_byte c3 c0 c1 c2 in
      Ret [r0; r1; r2; r3]
  | _ => Panic
  end.

(** src/aes.rs:234-241 *)
Definition dec_shift_rows (s : Block) : res Block :=
  match s with
  | [[s00; s01; s02; s03]; [s10; s11; s12; s13];
     [s20; s21; s22; s23]; [s30; s31; s32; s33]] =>
      Ret [[s00; s31; s22; s13];
           [s10; s01; s32; s23];
           [s20; s11; s02; s33];
           [s30; s21; s12; s03]]
  | _ => Panic
  end.

(** src/aes.rs:244-251 *)
Definition to_block (b : list N) : res Block :=
  match b with
  | [b0; b1; b2; b3; b4; b5; b6; b7; b8; b9; b10; b11; b12; b13; b14; b15] =>
      Ret [[b0; b1; b2; b3]; [b4; b5; b6; b7];
           [b8; b9; b10; b11]; [b12; b13; b14; b15]]
  | _ => Panic
  end.

(** src/aes.rs:253-258 *)
Definition from_block (s : Block) : res (list N) :=
  match s with
  | [[s00; s01; s02; s03]; [s10; s11; s12; s13];
     [s20; s21; s22; s23]; [s30; s31; s32; s33]] =>
      Ret [s00; s01; s02; s03; s10; s11; s12; s13;
           s20; s21; s22; s23; s30; s31; s32; s33]
  | _ => Panic
  end.

(** src/aes.rs:327-346.  On an invalid size the [match] returns before
    [self.round_count] is assigned. *)
Definition aes_init (a : AES) (key : list N) : res (result unit AESError * AES) :=
  let rc :=
    match len key with
    | 16 => Some 10
    | 24 => Some 12
    | 32 => Some 14
    | _ => None
    end in
  match rc with
  | None => let* _ := emit (Branch false) in Ret (Err InvalidKeySize, a)
  | Some rc =>
      let* _ := emit (Branch true) in
      let* w := expand_key key rc in
      Ret (Ok tt, mkAES rc (Some w))
  end.

(** src/aes.rs:349-374 ([&self]: no state change) *)
Definition aes_encrypt (a : AES) (b : list N) : res (result (list N) AESError) :=
  let nr := round_count a in
  let* state := to_block b in
  match round_keys a with
  | None => let* _ := emit (Branch false) in Ret (Err NotInitialized)
  | Some round_keys =>
      let* _ := emit (Branch true) in
      let* k := slice round_keys 0 NB in
      let* state := add_round_key state k in
      let* state := for_range 1 nr (fun round state =>
        let* state := sub_bytes enc_lookup_sbox state in
        let* state := enc_shift_rows state in
        let* state := mix_columns enc_mix_column state in
        let* k := slice round_keys (round * NB) ((round + 1) * NB) in
        add_round_key state k) state in
      let* state := sub_bytes enc_lookup_sbox state in
      let* state := enc_shift_rows state in
      let* k := slice_from round_keys (nr * NB) in
      let* state := add_round_key state k in
      let* out := from_block state in
      Ret (Ok out)
  end.

(** src/aes.rs:377-402 *)
Definition aes_decrypt (a : AES) (b : list N) : res (result (list N) AESError) :=
  let nr := round_count a in
  let* state := to_block b in
  match round_keys a with
  | None => let* _ := emit (Branch false) in Ret (Err NotInitialized)
  | Some round_keys =>
      let* _ := emit (Branch true) in
      let* k := slice_from round_keys (nr * NB) in
      let* state := add_round_key state k in
      let* state := for_range_rev 1 nr (fun round state =>
        let* state := dec_shift_rows state in
        let* state := sub_bytes dec_lookup_sbox state in
        let* k := slice round_keys (round * NB) ((round + 1) * NB) in
        let* state := add_round_key state k in
        mix_columns dec_mix_column state) state in
      let* state := dec_shift_rows state in
      let* state := sub_bytes dec_lookup_sbox state in
      let* k := slice round_keys 0 NB in
      let* state := add_round_key state k in
      let* out := from_block state in
      Ret (Ok out)
  end.
