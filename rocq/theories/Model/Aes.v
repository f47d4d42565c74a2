(** Model of /repo/src/aes.rs. *)
From Coq Require Import NArith List String.
From Verif Require Import Rust.
Import ListNotations.
Local Open Scope N_scope.

(** src/aes.rs:13-14 *)
Definition BLOCK_SIZE : N := 16.
Definition NB : N := 4.

(** src/aes.rs:17: block[column][row].  A list of four lists of four bytes; the
    Rust type guarantees those lengths, a list of another shape is [Panic]. *)
Definition Block : Type := list (list N).

(** src/aes.rs:19-36 *)
Definition SBOX : list N := [
    0x63; 0x7c; 0x77; 0x7b; 0xf2; 0x6b; 0x6f; 0xc5; 0x30; 0x01; 0x67; 0x2b; 0xfe; 0xd7; 0xab; 0x76;
    0xca; 0x82; 0xc9; 0x7d; 0xfa; 0x59; 0x47; 0xf0; 0xad; 0xd4; 0xa2; 0xaf; 0x9c; 0xa4; 0x72; 0xc0;
    0xb7; 0xfd; 0x93; 0x26; 0x36; 0x3f; 0xf7; 0xcc; 0x34; 0xa5; 0xe5; 0xf1; 0x71; 0xd8; 0x31; 0x15;
    0x04; 0xc7; 0x23; 0xc3; 0x18; 0x96; 0x05; 0x9a; 0x07; 0x12; 0x80; 0xe2; 0xeb; 0x27; 0xb2; 0x75;
    0x09; 0x83; 0x2c; 0x1a; 0x1b; 0x6e; 0x5a; 0xa0; 0x52; 0x3b; 0xd6; 0xb3; 0x29; 0xe3; 0x2f; 0x84;
    0x53; 0xd1; 0x00; 0xed; 0x20; 0xfc; 0xb1; 0x5b; 0x6a; 0xcb; 0xbe; 0x39; 0x4a; 0x4c; 0x58; 0xcf;
    0xd0; 0xef; 0xaa; 0xfb; 0x43; 0x4d; 0x33; 0x85; 0x45; 0xf9; 0x02; 0x7f; 0x50; 0x3c; 0x9f; 0xa8;
    0x51; 0xa3; 0x40; 0x8f; 0x92; 0x9d; 0x38; 0xf5; 0xbc; 0xb6; 0xda; 0x21; 0x10; 0xff; 0xf3; 0xd2;
    0xcd; 0x0c; 0x13; 0xec; 0x5f; 0x97; 0x44; 0x17; 0xc4; 0xa7; 0x7e; 0x3d; 0x64; 0x5d; 0x19; 0x73;
    0x60; 0x81; 0x4f; 0xdc; 0x22; 0x2a; 0x90; 0x88; 0x46; 0xee; 0xb8; 0x14; 0xde; 0x5e; 0x0b; 0xdb;
    0xe0; 0x32; 0x3a; 0x0a; 0x49; 0x06; 0x24; 0x5c; 0xc2; 0xd3; 0xac; 0x62; 0x91; 0x95; 0xe4; 0x79;
    0xe7; 0xc8; 0x37; 0x6d; 0x8d; 0xd5; 0x4e; 0xa9; 0x6c; 0x56; 0xf4; 0xea; 0x65; 0x7a; 0xae; 0x08;
    0xba; 0x78; 0x25; 0x2e; 0x1c; 0xa6; 0xb4; 0xc6; 0xe8; 0xdd; 0x74; 0x1f; 0x4b; 0xbd; 0x8b; 0x8a;
    0x70; 0x3e; 0xb5; 0x66; 0x48; 0x03; 0xf6; 0x0e; 0x61; 0x35; 0x57; 0xb9; 0x86; 0xc1; 0x1d; 0x9e;
    0xe1; 0xf8; 0x98; 0x11; 0x69; 0xd9; 0x8e; 0x94; 0x9b; 0x1e; 0x87; 0xe9; 0xce; 0x55; 0x28; 0xdf;
    0x8c; 0xa1; 0x89; 0x0d; 0xbf; 0xe6; 0x42; 0x68; 0x41; 0x99; 0x2d; 0x0f; 0xb0; 0x54; 0xbb; 0x16].

(** src/aes.rs:38-55 *)
Definition INV_SBOX : list N := [
    0x52; 0x09; 0x6a; 0xd5; 0x30; 0x36; 0xa5; 0x38; 0xbf; 0x40; 0xa3; 0x9e; 0x81; 0xf3; 0xd7; 0xfb;
    0x7c; 0xe3; 0x39; 0x82; 0x9b; 0x2f; 0xff; 0x87; 0x34; 0x8e; 0x43; 0x44; 0xc4; 0xde; 0xe9; 0xcb;
    0x54; 0x7b; 0x94; 0x32; 0xa6; 0xc2; 0x23; 0x3d; 0xee; 0x4c; 0x95; 0x0b; 0x42; 0xfa; 0xc3; 0x4e;
    0x08; 0x2e; 0xa1; 0x66; 0x28; 0xd9; 0x24; 0xb2; 0x76; 0x5b; 0xa2; 0x49; 0x6d; 0x8b; 0xd1; 0x25;
    0x72; 0xf8; 0xf6; 0x64; 0x86; 0x68; 0x98; 0x16; 0xd4; 0xa4; 0x5c; 0xcc; 0x5d; 0x65; 0xb6; 0x92;
    0x6c; 0x70; 0x48; 0x50; 0xfd; 0xed; 0xb9; 0xda; 0x5e; 0x15; 0x46; 0x57; 0xa7; 0x8d; 0x9d; 0x84;
    0x90; 0xd8; 0xab; 0x00; 0x8c; 0xbc; 0xd3; 0x0a; 0xf7; 0xe4; 0x58; 0x05; 0xb8; 0xb3; 0x45; 0x06;
    0xd0; 0x2c; 0x1e; 0x8f; 0xca; 0x3f; 0x0f; 0x02; 0xc1; 0xaf; 0xbd; 0x03; 0x01; 0x13; 0x8a; 0x6b;
    0x3a; 0x91; 0x11; 0x41; 0x4f; 0x67; 0xdc; 0xea; 0x97; 0xf2; 0xcf; 0xce; 0xf0; 0xb4; 0xe6; 0x73;
    0x96; 0xac; 0x74; 0x22; 0xe7; 0xad; 0x35; 0x85; 0xe2; 0xf9; 0x37; 0xe8; 0x1c; 0x75; 0xdf; 0x6e;
    0x47; 0xf1; 0x1a; 0x71; 0x1d; 0x29; 0xc5; 0x89; 0x6f; 0xb7; 0x62; 0x0e; 0xaa; 0x18; 0xbe; 0x1b;
    0xfc; 0x56; 0x3e; 0x4b; 0xc6; 0xd2; 0x79; 0x20; 0x9a; 0xdb; 0xc0; 0xfe; 0x78; 0xcd; 0x5a; 0xf4;
    0x1f; 0xdd; 0xa8; 0x33; 0x88; 0x07; 0xc7; 0x31; 0xb1; 0x12; 0x10; 0x59; 0x27; 0x80; 0xec; 0x5f;
    0x60; 0x51; 0x7f; 0xa9; 0x19; 0xb5; 0x4a; 0x0d; 0x2d; 0xe5; 0x7a; 0x9f; 0x93; 0xc9; 0x9c; 0xef;
    0xa0; 0xe0; 0x3b; 0x4d; 0xae; 0x2a; 0xf5; 0xb0; 0xc8; 0xeb; 0xbb; 0x3c; 0x83; 0x53; 0x99; 0x61;
    0x17; 0x2b; 0x04; 0x7e; 0xba; 0x77; 0xd6; 0x26; 0xe1; 0x69; 0x14; 0x63; 0x55; 0x21; 0x0c; 0x7d].

(** src/aes.rs:60-71 *)
Definition RCON : list N := [
  0x01000000; 0x02000000; 0x04000000; 0x08000000; 0x10000000;
  0x20000000; 0x40000000; 0x80000000; 0x1b000000; 0x36000000].

(** src/aes.rs:74-80 *)
Definition double (b : N) : N :=
  if N.land b 0x80 =? 0 then shl8 b 1 else N.lxor (shl8 b 1) 0x1b.

(** src/aes.rs:83-94.  Loop state: (by, res, power); one unit of fuel per bit of
    [by]. *)
Definition mul (b by_ : N) : res N :=
  let* (_, r, _) :=
    while_loop (N.size_nat by_) (fun '(by_, _, _) => negb (by_ =? 0))
      (fun '(by_, r, power) =>
         let r := if negb (N.land by_ 1 =? 0) then N.lxor r power else r in
         Ret (shr by_ 1, r, double power))
      (by_, 0, b) in
  Ret r.

(** src/aes.rs:96-106 *)
Definition sub_word (b : N) : res N :=
  let b0 := shr b 24 in
  let b1 := N.land (shr b 16) 0xff in
  let b2 := N.land (shr b 8) 0xff in
  let b3 := N.land b 0xff in
  let* s0 := idx SBOX b0 in
  let* s1 := idx SBOX b1 in
  let* s2 := idx SBOX b2 in
  let* s3 := idx SBOX b3 in
  Ret (N.lor (N.lor (N.lor (shl32 s0 24) (shl32 s1 16)) (shl32 s2 8)) s3).

(** src/aes.rs:108-110 *)
Definition rot_word (b : N) : N := N.lor (shl32 b 8) (shr b 24).

(** src/aes.rs:112-160.  The two [while] loops count [i] up by one to a fixed
    bound, so they are counted loops here. *)
Definition expand_key (key : list N) (round_count : N) : res (list N) :=
  let nk := len key / 4 in
  let* w := for_range 0 nk (fun i w =>
    let* k0 := idx key (4 * i) in
    let* k1 := idx key (4 * i + 1) in
    let* k2 := idx key (4 * i + 2) in
    let* k3 := idx key (4 * i + 3) in
    Ret (w ++ [N.lor (N.lor (N.lor (shl32 k0 24) (shl32 k1 16)) (shl32 k2 8)) k3]))
    [] in
  for_range nk (NB * (round_count + 1)) (fun i w =>
    let* temp := idx w (i - 1) in
    let* m := urem i nk in
    let* temp :=
      (if m =? 0 then
         let* q := udiv i nk in
         let* s := sub_word (rot_word temp) in
         let* rc := idx RCON (q - 1) in
         Ret (N.lxor s rc)
       else if (6 <? nk) && (m =? 4) then sub_word temp
       else Ret temp)%bool in
    let* prev := idx w (i - nk) in
    Ret (w ++ [N.lxor prev temp])) w.

(** src/aes.rs:169-176.  [s.iter_mut().zip(round_key)]: columns without a key
    word are left alone. *)
Definition add_round_key_col (col : list N) (key : N) : res (list N) :=
  match col with
  | [c0; c1; c2; c3] =>
      Ret [N.lxor c0 (as_u8 (shr key 24));
           N.lxor c1 (as_u8 (N.land (shr key 16) 0xff));
           N.lxor c2 (as_u8 (N.land (shr key 8) 0xff));
           N.lxor c3 (as_u8 (N.land key 0xff))]
  | _ => Panic
  end.
Fixpoint add_round_key (s : Block) (round_key : list N) : res Block :=
  match s, round_key with
  | col :: s', key :: rk' =>
      let* col := add_round_key_col col key in
      let* s' := add_round_key s' rk' in
      Ret (col :: s')
  | _, _ => Ret s
  end.

(** src/aes.rs:178-184, generic in the trait's [lookup_sbox] *)
Definition sub_bytes (lookup_sbox : N -> res N) (s : Block) : res Block :=
  map_res (map_res lookup_sbox) s.

(** src/aes.rs:186-190, generic in the trait's [mix_column] *)
Definition mix_columns (mix_column : list N -> res (list N)) (s : Block) : res Block :=
  map_res mix_column s.

(** src/aes.rs:197-199 *)
Definition enc_lookup_sbox (b : N) : res N := idx SBOX b.

(** src/aes.rs:201-208 *)
Definition enc_mix_column (col : list N) : res (list N) :=
  match col with
  | [c0; c1; c2; c3] =>
      let* a02 := mul c0 2 in let* a13 := mul c1 3 in
      let* a12 := mul c1 2 in let* a23 := mul c2 3 in
      let* a22 := mul c2 2 in let* a33 := mul c3 3 in
      let* a32 := mul c3 2 in let* a03 := mul c0 3 in
      Ret [N.lxor (N.lxor (N.lxor a02 a13) c2) c3;
           N.lxor (N.lxor (N.lxor a12 a23) c3) c0;
           N.lxor (N.lxor (N.lxor a22 a33) c0) c1;
           N.lxor (N.lxor (N.lxor a32 a03) c1) c2]
  | _ => Panic
  end.

(** src/aes.rs:210-217 *)
Definition enc_shift_rows (s : Block) : res Block :=
  match s with
  | [[s00; s01; s02; s03]; [s10; s11; s12; s13];
     [s20; s21; s22; s23]; [s30; s31; s32; s33]] =>
      Ret [[s00; s11; s22; s33];
           [s10; s21; s32; s03];
           [s20; s31; s02; s13];
           [s30; s01; s12; s23]]
  | _ => Panic
  end.

(** src/aes.rs:221-223 *)
Definition dec_lookup_sbox (b : N) : res N := idx INV_SBOX b.

(** One output byte of src/aes.rs:227-230:
    [mul(a, 0x0e) ^ mul(b, 0x0b) ^ mul(c, 0x0d) ^ mul(d, 0x09)]. *)
Definition dec_mix_byte (a b c d : N) : res N :=
  let* x := mul a 0x0e in let* y := mul b 0x0b in
  let* z := mul c 0x0d in let* w := mul d 0x09 in
  Ret (N.lxor (N.lxor (N.lxor x y) z) w).

(** src/aes.rs:225-232 *)
Definition dec_mix_column (col : list N) : res (list N) :=
  match col with
  | [c0; c1; c2; c3] =>
      let* r0 := dec_mix_byte c0 c1 c2 c3 in
      let* r1 := dec_mix_byte c1 c2 c3 c0 in
      let* r2 := dec_mix_byte c2 c3 c0 c1 in
      let* r3 := dec_mix_byte c3 c0 c1 c2 in
      Ret [r0; r1; r2; r3]
  | _ => Panic
  end.

(** src/aes.rs:234-241 *)
Definition dec_shift_rows (s : Block) : res Block :=
  match s with
  | [[s00; s01; s02; s03]; [s10; s11; s12; s13];
     [s20; s21; s22; s23]; [s30; s31; s32; s33]] =>
      Ret [[s00; s31; s22; s13];
           [s10; s01; s32; s23];
           [s20; s11; s02; s33];
           [s30; s21; s12; s03]]
  | _ => Panic
  end.

(** src/aes.rs:244-251 *)
Definition to_block (b : list N) : res Block :=
  match b with
  | [b0; b1; b2; b3; b4; b5; b6; b7; b8; b9; b10; b11; b12; b13; b14; b15] =>
      Ret [[b0; b1; b2; b3]; [b4; b5; b6; b7];
           [b8; b9; b10; b11]; [b12; b13; b14; b15]]
  | _ => Panic
  end.

(** src/aes.rs:253-258 *)
Definition from_block (s : Block) : res (list N) :=
  match s with
  | [[s00; s01; s02; s03]; [s10; s11; s12; s13];
     [s20; s21; s22; s23]; [s30; s31; s32; s33]] =>
      Ret [s00; s01; s02; s03; s10; s11; s12; s13;
           s20; s21; s22; s23; s30; s31; s32; s33]
  | _ => Panic
  end.

(** src/aes.rs:262-269 *)
Inductive AESError : Type := InvalidKeySize | NotInitialized.

(** src/aes.rs:277-284 *)
Definition aes_error_description (e : AESError) : string :=
  match e with
  | InvalidKeySize => "key size must be either of: 128, 192, or 256 bits"
  | NotInitialized => "AES instance must be initialized prior to use"
  end.

(** src/aes.rs:271-275 *)
Definition aes_error_display (e : AESError) : string :=
  "AESError: " ++ aes_error_description e.

(** src/aes.rs:312-315 *)
Record AES : Type := mkAES { round_count : N; round_keys : option (list N) }.

(** src/aes.rs:319-324, and Default at 405-409 *)
Definition aes_new : AES := mkAES 0 None.
Definition aes_default : AES := aes_new.

(** src/aes.rs:327-346.  On an invalid size the [match] returns before
    [self.round_count] is assigned. *)
Definition aes_init (a : AES) (key : list N) : res (result unit AESError * AES) :=
  let rc :=
    match len key with
    | 16 => Some 10
    | 24 => Some 12
    | 32 => Some 14
    | _ => None
    end in
  match rc with
  | None => Ret (Err InvalidKeySize, a)
  | Some rc =>
      let* w := expand_key key rc in
      Ret (Ok tt, mkAES rc (Some w))
  end.

(** src/aes.rs:349-374 ([&self]: no state change) *)
Definition aes_encrypt (a : AES) (b : list N) : res (result (list N) AESError) :=
  let nr := round_count a in
  let* state := to_block b in
  match round_keys a with
  | None => Ret (Err NotInitialized)
  | Some round_keys =>
      let* k := slice round_keys 0 NB in
      let* state := add_round_key state k in
      let* state := for_range 1 nr (fun round state =>
        let* state := sub_bytes enc_lookup_sbox state in
        let* state := enc_shift_rows state in
        let* state := mix_columns enc_mix_column state in
        let* k := slice round_keys (round * NB) ((round + 1) * NB) in
        add_round_key state k) state in
      let* state := sub_bytes enc_lookup_sbox state in
      let* state := enc_shift_rows state in
      let* k := slice_from round_keys (nr * NB) in
      let* state := add_round_key state k in
      let* out := from_block state in
      Ret (Ok out)
  end.

(** src/aes.rs:377-402 *)
Definition aes_decrypt (a : AES) (b : list N) : res (result (list N) AESError) :=
  let nr := round_count a in
  let* state := to_block b in
  match round_keys a with
  | None => Ret (Err NotInitialized)
  | Some round_keys =>
      let* k := slice_from round_keys (nr * NB) in
      let* state := add_round_key state k in
      let* state := for_range_rev 1 nr (fun round state =>
        let* state := dec_shift_rows state in
        let* state := sub_bytes dec_lookup_sbox state in
        let* k := slice round_keys (round * NB) ((round + 1) * NB) in
        let* state := add_round_key state k in
        mix_columns dec_mix_column state) state in
      let* state := dec_shift_rows state in
      let* state := sub_bytes dec_lookup_sbox state in
      let* k := slice round_keys 0 NB in
      let* state := add_round_key state k in
      let* out := from_block state in
      Ret (Ok out)
  end.
