(** Syntax trees of the functions and constants of /repo/src.  Written by
    tools/gen_source.py from the text of /repo; do not edit. *)
From Coq Require Import NArith List String.
From Verif.Source Require Import Syntax.
Import ListNotations.
Local Open Scope string_scope.
Local Open Scope N_scope.

(** src/sha256.rs:9 *)
Definition c_sha256_DIGEST_SIZE : ty * expr := (TInt Usize, (ELit 32)).

(** src/sha256.rs:12 *)
Definition c_sha256_BLOCK_SIZE : ty * expr := (TInt Usize, (ELit 64)).

(** src/sha256.rs:15-80 *)
Definition c_sha256_K : ty * expr := (TSeq (TInt U32), (EArray [(ELit 1116352408); (ELit
  1899447441); (ELit 3049323471); (ELit 3921009573); (ELit 961987163); (ELit 1508970993); (ELit
  2453635748); (ELit 2870763221); (ELit 3624381080); (ELit 310598401); (ELit 607225278); (ELit
  1426881987); (ELit 1925078388); (ELit 2162078206); (ELit 2614888103); (ELit 3248222580); (ELit
  3835390401); (ELit 4022224774); (ELit 264347078); (ELit 604807628); (ELit 770255983); (ELit
  1249150122); (ELit 1555081692); (ELit 1996064986); (ELit 2554220882); (ELit 2821834349); (ELit
  2952996808); (ELit 3210313671); (ELit 3336571891); (ELit 3584528711); (ELit 113926993); (ELit
  338241895); (ELit 666307205); (ELit 773529912); (ELit 1294757372); (ELit 1396182291); (ELit
  1695183700); (ELit 1986661051); (ELit 2177026350); (ELit 2456956037); (ELit 2730485921); (ELit
  2820302411); (ELit 3259730800); (ELit 3345764771); (ELit 3516065817); (ELit 3600352804); (ELit
  4094571909); (ELit 275423344); (ELit 430227734); (ELit 506948616); (ELit 659060556); (ELit
  883997877); (ELit 958139571); (ELit 1322822218); (ELit 1537002063); (ELit 1747873779); (ELit
  1955562222); (ELit 2024104815); (ELit 2227730452); (ELit 2361852424); (ELit 2428436474); (ELit
  2756734187); (ELit 3204031479); (ELit 3329325298)])).

(** src/sha256.rs:82-91 *)
Definition c_sha256_H : ty * expr := (TSeq (TInt U32), (EArray [(ELit 1779033703); (ELit
  3144134277); (ELit 1013904242); (ELit 2773480762); (ELit 1359893119); (ELit 2600822924); (ELit
  528734635); (ELit 1541459225)])).

(** src/salsa20.rs:9 *)
Definition c_salsa20_BLOCK_SIZE : ty * expr := (TInt Usize, (ELit 64)).

(** src/scrypt.rs:12 *)
Definition c_scrypt_SALSA_ROUNDS : ty * expr := (TInt Usize, (ELit 4)).

(** src/scrypt.rs:13 *)
Definition c_scrypt_PBKDF2_ROUNDS : ty * expr := (TInt Usize, (ELit 1)).

(** src/scrypt.rs:14 *)
Definition c_scrypt_BLOCK_SIZE : ty * expr := (TInt Usize, (ELit 64)).

(** src/aes.rs:13 *)
Definition c_aes_BLOCK_SIZE : ty * expr := (TInt Usize, (ELit 16)).

(** src/aes.rs:14 *)
Definition c_aes_NB : ty * expr := (TInt Usize, (ELit 4)).

(** src/aes.rs:19-36 *)
Definition c_aes_SBOX : ty * expr := (TSeq (TInt U8), (EArray [(ELit 99); (ELit 124); (ELit 119);
  (ELit 123); (ELit 242); (ELit 107); (ELit 111); (ELit 197); (ELit 48); (ELit 1); (ELit 103);
  (ELit 43); (ELit 254); (ELit 215); (ELit 171); (ELit 118); (ELit 202); (ELit 130); (ELit 201);
  (ELit 125); (ELit 250); (ELit 89); (ELit 71); (ELit 240); (ELit 173); (ELit 212); (ELit 162);
  (ELit 175); (ELit 156); (ELit 164); (ELit 114); (ELit 192); (ELit 183); (ELit 253); (ELit 147);
  (ELit 38); (ELit 54); (ELit 63); (ELit 247); (ELit 204); (ELit 52); (ELit 165); (ELit 229); (ELit
  241); (ELit 113); (ELit 216); (ELit 49); (ELit 21); (ELit 4); (ELit 199); (ELit 35); (ELit 195);
  (ELit 24); (ELit 150); (ELit 5); (ELit 154); (ELit 7); (ELit 18); (ELit 128); (ELit 226); (ELit
  235); (ELit 39); (ELit 178); (ELit 117); (ELit 9); (ELit 131); (ELit 44); (ELit 26); (ELit 27);
  (ELit 110); (ELit 90); (ELit 160); (ELit 82); (ELit 59); (ELit 214); (ELit 179); (ELit 41); (ELit
  227); (ELit 47); (ELit 132); (ELit 83); (ELit 209); (ELit 0); (ELit 237); (ELit 32); (ELit 252);
  (ELit 177); (ELit 91); (ELit 106); (ELit 203); (ELit 190); (ELit 57); (ELit 74); (ELit 76); (ELit
  88); (ELit 207); (ELit 208); (ELit 239); (ELit 170); (ELit 251); (ELit 67); (ELit 77); (ELit 51);
  (ELit 133); (ELit 69); (ELit 249); (ELit 2); (ELit 127); (ELit 80); (ELit 60); (ELit 159); (ELit
  168); (ELit 81); (ELit 163); (ELit 64); (ELit 143); (ELit 146); (ELit 157); (ELit 56); (ELit
  245); (ELit 188); (ELit 182); (ELit 218); (ELit 33); (ELit 16); (ELit 255); (ELit 243); (ELit
  210); (ELit 205); (ELit 12); (ELit 19); (ELit 236); (ELit 95); (ELit 151); (ELit 68); (ELit 23);
  (ELit 196); (ELit 167); (ELit 126); (ELit 61); (ELit 100); (ELit 93); (ELit 25); (ELit 115);
  (ELit 96); (ELit 129); (ELit 79); (ELit 220); (ELit 34); (ELit 42); (ELit 144); (ELit 136); (ELit
  70); (ELit 238); (ELit 184); (ELit 20); (ELit 222); (ELit 94); (ELit 11); (ELit 219); (ELit 224);
  (ELit 50); (ELit 58); (ELit 10); (ELit 73); (ELit 6); (ELit 36); (ELit 92); (ELit 194); (ELit
  211); (ELit 172); (ELit 98); (ELit 145); (ELit 149); (ELit 228); (ELit 121); (ELit 231); (ELit
  200); (ELit 55); (ELit 109); (ELit 141); (ELit 213); (ELit 78); (ELit 169); (ELit 108); (ELit
  86); (ELit 244); (ELit 234); (ELit 101); (ELit 122); (ELit 174); (ELit 8); (ELit 186); (ELit
  120); (ELit 37); (ELit 46); (ELit 28); (ELit 166); (ELit 180); (ELit 198); (ELit 232); (ELit
  221); (ELit 116); (ELit 31); (ELit 75); (ELit 189); (ELit 139); (ELit 138); (ELit 112); (ELit
  62); (ELit 181); (ELit 102); (ELit 72); (ELit 3); (ELit 246); (ELit 14); (ELit 97); (ELit 53);
  (ELit 87); (ELit 185); (ELit 134); (ELit 193); (ELit 29); (ELit 158); (ELit 225); (ELit 248);
  (ELit 152); (ELit 17); (ELit 105); (ELit 217); (ELit 142); (ELit 148); (ELit 155); (ELit 30);
  (ELit 135); (ELit 233); (ELit 206); (ELit 85); (ELit 40); (ELit 223); (ELit 140); (ELit 161);
  (ELit 137); (ELit 13); (ELit 191); (ELit 230); (ELit 66); (ELit 104); (ELit 65); (ELit 153);
  (ELit 45); (ELit 15); (ELit 176); (ELit 84); (ELit 187); (ELit 22)])).

(** src/aes.rs:38-55 *)
Definition c_aes_INV_SBOX : ty * expr := (TSeq (TInt U8), (EArray [(ELit 82); (ELit 9); (ELit 106);
  (ELit 213); (ELit 48); (ELit 54); (ELit 165); (ELit 56); (ELit 191); (ELit 64); (ELit 163); (ELit
  158); (ELit 129); (ELit 243); (ELit 215); (ELit 251); (ELit 124); (ELit 227); (ELit 57); (ELit
  130); (ELit 155); (ELit 47); (ELit 255); (ELit 135); (ELit 52); (ELit 142); (ELit 67); (ELit 68);
  (ELit 196); (ELit 222); (ELit 233); (ELit 203); (ELit 84); (ELit 123); (ELit 148); (ELit 50);
  (ELit 166); (ELit 194); (ELit 35); (ELit 61); (ELit 238); (ELit 76); (ELit 149); (ELit 11); (ELit
  66); (ELit 250); (ELit 195); (ELit 78); (ELit 8); (ELit 46); (ELit 161); (ELit 102); (ELit 40);
  (ELit 217); (ELit 36); (ELit 178); (ELit 118); (ELit 91); (ELit 162); (ELit 73); (ELit 109);
  (ELit 139); (ELit 209); (ELit 37); (ELit 114); (ELit 248); (ELit 246); (ELit 100); (ELit 134);
  (ELit 104); (ELit 152); (ELit 22); (ELit 212); (ELit 164); (ELit 92); (ELit 204); (ELit 93);
  (ELit 101); (ELit 182); (ELit 146); (ELit 108); (ELit 112); (ELit 72); (ELit 80); (ELit 253);
  (ELit 237); (ELit 185); (ELit 218); (ELit 94); (ELit 21); (ELit 70); (ELit 87); (ELit 167); (ELit
  141); (ELit 157); (ELit 132); (ELit 144); (ELit 216); (ELit 171); (ELit 0); (ELit 140); (ELit
  188); (ELit 211); (ELit 10); (ELit 247); (ELit 228); (ELit 88); (ELit 5); (ELit 184); (ELit 179);
  (ELit 69); (ELit 6); (ELit 208); (ELit 44); (ELit 30); (ELit 143); (ELit 202); (ELit 63); (ELit
  15); (ELit 2); (ELit 193); (ELit 175); (ELit 189); (ELit 3); (ELit 1); (ELit 19); (ELit 138);
  (ELit 107); (ELit 58); (ELit 145); (ELit 17); (ELit 65); (ELit 79); (ELit 103); (ELit 220); (ELit
  234); (ELit 151); (ELit 242); (ELit 207); (ELit 206); (ELit 240); (ELit 180); (ELit 230); (ELit
  115); (ELit 150); (ELit 172); (ELit 116); (ELit 34); (ELit 231); (ELit 173); (ELit 53); (ELit
  133); (ELit 226); (ELit 249); (ELit 55); (ELit 232); (ELit 28); (ELit 117); (ELit 223); (ELit
  110); (ELit 71); (ELit 241); (ELit 26); (ELit 113); (ELit 29); (ELit 41); (ELit 197); (ELit 137);
  (ELit 111); (ELit 183); (ELit 98); (ELit 14); (ELit 170); (ELit 24); (ELit 190); (ELit 27); (ELit
  252); (ELit 86); (ELit 62); (ELit 75); (ELit 198); (ELit 210); (ELit 121); (ELit 32); (ELit 154);
  (ELit 219); (ELit 192); (ELit 254); (ELit 120); (ELit 205); (ELit 90); (ELit 244); (ELit 31);
  (ELit 221); (ELit 168); (ELit 51); (ELit 136); (ELit 7); (ELit 199); (ELit 49); (ELit 177); (ELit
  18); (ELit 16); (ELit 89); (ELit 39); (ELit 128); (ELit 236); (ELit 95); (ELit 96); (ELit 81);
  (ELit 127); (ELit 169); (ELit 25); (ELit 181); (ELit 74); (ELit 13); (ELit 45); (ELit 229); (ELit
  122); (ELit 159); (ELit 147); (ELit 201); (ELit 156); (ELit 239); (ELit 160); (ELit 224); (ELit
  59); (ELit 77); (ELit 174); (ELit 42); (ELit 245); (ELit 176); (ELit 200); (ELit 235); (ELit
  187); (ELit 60); (ELit 131); (ELit 83); (ELit 153); (ELit 97); (ELit 23); (ELit 43); (ELit 4);
  (ELit 126); (ELit 186); (ELit 119); (ELit 214); (ELit 38); (ELit 225); (ELit 105); (ELit 20);
  (ELit 99); (ELit 85); (ELit 33); (ELit 12); (ELit 125)])).

(** src/aes.rs:60-71 *)
Definition c_aes_RCON : ty * expr := (TSeq (TInt U32), (EArray [(ELit 16777216); (ELit 33554432);
  (ELit 67108864); (ELit 134217728); (ELit 268435456); (ELit 536870912); (ELit 1073741824); (ELit
  2147483648); (ELit 452984832); (ELit 905969664)])).

(** src/sha256.rs:94-96 *)
Definition f_sha256_ch : fn := mkFn [("x", ByVal, TInt U32); ("y", ByVal, TInt U32); ("z", ByVal,
  TInt U32)] (TInt U32)
  (EBin Xor (EBin And (EVar "x") (EVar "y")) (EBin And (ENot (EVar "x")) (EVar "z"))).

(** src/sha256.rs:99-101 *)
Definition f_sha256_maj : fn := mkFn [("x", ByVal, TInt U32); ("y", ByVal, TInt U32); ("z", ByVal,
  TInt U32)] (TInt U32)
  (EBin Xor (EBin Xor (EBin And (EVar "x") (EVar "y")) (EBin And (EVar "x") (EVar "z"))) (EBin And
  (EVar "y") (EVar "z"))).

(** src/sha256.rs:103-105 *)
Definition f_sha256_rotr : fn := mkFn [("n", ByVal, TInt U32); ("s", ByVal, TInt U32)] (TInt U32)
  (EBin Or (EBin Shl (EVar "n") (EBin Sub (ELit 32) (EVar "s"))) (EBin Shr (EVar "n") (EVar "s"))).

(** src/sha256.rs:108-110 *)
Definition f_sha256_bsig0 : fn := mkFn [("x", ByVal, TInt U32)] (TInt U32)
  (EBin Xor (EBin Xor (ECall "sha256::rotr" [(EVar "x"); (ELit 2)]) (ECall "sha256::rotr" [(EVar
  "x"); (ELit 13)])) (ECall "sha256::rotr" [(EVar "x"); (ELit 22)])).

(** src/sha256.rs:113-115 *)
Definition f_sha256_bsig1 : fn := mkFn [("x", ByVal, TInt U32)] (TInt U32)
  (EBin Xor (EBin Xor (ECall "sha256::rotr" [(EVar "x"); (ELit 6)]) (ECall "sha256::rotr" [(EVar
  "x"); (ELit 11)])) (ECall "sha256::rotr" [(EVar "x"); (ELit 25)])).

(** src/sha256.rs:118-120 *)
Definition f_sha256_ssig0 : fn := mkFn [("x", ByVal, TInt U32)] (TInt U32)
  (EBin Xor (EBin Xor (ECall "sha256::rotr" [(EVar "x"); (ELit 7)]) (ECall "sha256::rotr" [(EVar
  "x"); (ELit 18)])) (EBin Shr (EVar "x") (ELit 3))).

(** src/sha256.rs:123-125 *)
Definition f_sha256_ssig1 : fn := mkFn [("x", ByVal, TInt U32)] (TInt U32)
  (EBin Xor (EBin Xor (ECall "sha256::rotr" [(EVar "x"); (ELit 17)]) (ECall "sha256::rotr" [(EVar
  "x"); (ELit 19)])) (EBin Shr (EVar "x") (ELit 10))).

(** src/sha256.rs:127-136 *)
Definition f_sha256_fill_block : fn := mkFn [("input", ByVal, TSeq (TInt U8)); ("output", ByMut,
  TSeq (TInt U32))] (TOther)
  (EFor (PVar "i") (ERange (ELit 0) (EMethod (EVar "output") "len" []) false) (ELet (PVar "i0")
  (TOther) (EFrom U32 (EIndex (EVar "input") (EBin Mul (EVar "i") (ELit 4))))
  (ELet (PVar "i1") (TOther) (EFrom U32 (EIndex (EVar "input") (EBin Add (EBin Mul (EVar "i") (ELit
  4)) (ELit 1))))
  (ELet (PVar "i2") (TOther) (EFrom U32 (EIndex (EVar "input") (EBin Add (EBin Mul (EVar "i") (ELit
  4)) (ELit 2))))
  (ELet (PVar "i3") (TOther) (EFrom U32 (EIndex (EVar "input") (EBin Add (EBin Mul (EVar "i") (ELit
  4)) (ELit 3))))
  (ESeq (EAssign (EIndex (EVar "output") (EVar "i")) (TOther) (EBin Or (EBin Or (EBin Or (EBin Shl
  (EVar "i0") (ELit 24)) (EBin Shl (EVar "i1") (ELit 16))) (EBin Shl (EVar "i2") (ELit 8))) (EVar
  "i3")))
  EUnit)))))).

(** src/sha256.rs:138-147 *)
Definition f_sha256_write_u64_be : fn := mkFn [("data", ByMut, TSeq (TInt U8)); ("value", ByVal,
  TInt U64)] (TOther)
  (ESeq (EAssign (EIndex (EVar "data") (ELit 0)) (TOther) (ECast U8 (EBin Shr (EVar "value") (ELit
  56))))
  (ESeq (EAssign (EIndex (EVar "data") (ELit 1)) (TOther) (ECast U8 (EBin Shr (EVar "value") (ELit
  48))))
  (ESeq (EAssign (EIndex (EVar "data") (ELit 2)) (TOther) (ECast U8 (EBin Shr (EVar "value") (ELit
  40))))
  (ESeq (EAssign (EIndex (EVar "data") (ELit 3)) (TOther) (ECast U8 (EBin Shr (EVar "value") (ELit
  32))))
  (ESeq (EAssign (EIndex (EVar "data") (ELit 4)) (TOther) (ECast U8 (EBin Shr (EVar "value") (ELit
  24))))
  (ESeq (EAssign (EIndex (EVar "data") (ELit 5)) (TOther) (ECast U8 (EBin Shr (EVar "value") (ELit
  16))))
  (ESeq (EAssign (EIndex (EVar "data") (ELit 6)) (TOther) (ECast U8 (EBin Shr (EVar "value") (ELit
  8))))
  (ESeq (EAssign (EIndex (EVar "data") (ELit 7)) (TOther) (ECast U8 (EVar "value")))
  EUnit)))))))).

(** src/sha256.rs:179-185 *)
Definition f_sha256_SHA256_new : fn := mkFn [] (TOther)
  (EStruct "sha256::SHA256" [("h", TSeq (TInt U32), (ECst "sha256::H")); ("buffer", TSeq (TInt U8),
  (ERepeat (ELit 0) (ECst "sha256::BLOCK_SIZE"))); ("length", TInt Usize, (ELit 0))]).

(** src/sha256.rs:187-277 *)
Definition f_sha256_SHA256_process_block : fn := mkFn [("self", ByMut, TOther); ("block", ByVal,
  TSeq (TInt U32))] (TOther)
  (ELet (PVar "w") (TSeq (TInt U32)) (ERepeat (ELit 0) (ELit 64))
  (EDeclare "a"
  (EDeclare "b"
  (EDeclare "c"
  (EDeclare "d"
  (EDeclare "e"
  (EDeclare "f"
  (EDeclare "g"
  (EDeclare "h"
  (ESeq (EMethod (ESlice (EVar "w") None (Some (ELit 16))) "clone_from_slice" [(ERef (ESlice (EVar
  "block") None (Some (ELit 16))))])
  (ESeq (EFor (PVar "t") (ERange (ELit 16) (ELit 64) false) (ESeq (EAssign (EIndex (EVar "w") (EVar
  "t")) (TOther) (ELet (PVar "acc") (TOther) (ECall "sha256::ssig1" [(EIndex (EVar "w") (EBin Sub
  (EVar "t") (ELit 2)))])
  (ESeq (EAssign (EVar "acc") (TOther) (EMethod (EVar "acc") "wrapping_add" [(EIndex (EVar "w")
  (EBin Sub (EVar "t") (ELit 7)))]))
  (ESeq (EAssign (EVar "acc") (TOther) (EMethod (EVar "acc") "wrapping_add" [(ECall "sha256::ssig0"
  [(EIndex (EVar "w") (EBin Sub (EVar "t") (ELit 15)))])]))
  (ESeq (EAssign (EVar "acc") (TOther) (EMethod (EVar "acc") "wrapping_add" [(EIndex (EVar "w")
  (EBin Sub (EVar "t") (ELit 16)))]))
  (EVar "acc"))))))
  EUnit))
  (ESeq (EAssign (EVar "a") (TOther) (EIndex (EField (EVar "self") "h") (ELit 0)))
  (ESeq (EAssign (EVar "b") (TOther) (EIndex (EField (EVar "self") "h") (ELit 1)))
  (ESeq (EAssign (EVar "c") (TOther) (EIndex (EField (EVar "self") "h") (ELit 2)))
  (ESeq (EAssign (EVar "d") (TOther) (EIndex (EField (EVar "self") "h") (ELit 3)))
  (ESeq (EAssign (EVar "e") (TOther) (EIndex (EField (EVar "self") "h") (ELit 4)))
  (ESeq (EAssign (EVar "f") (TOther) (EIndex (EField (EVar "self") "h") (ELit 5)))
  (ESeq (EAssign (EVar "g") (TOther) (EIndex (EField (EVar "self") "h") (ELit 6)))
  (ESeq (EAssign (EVar "h") (TOther) (EIndex (EField (EVar "self") "h") (ELit 7)))
  (ESeq (EFor (PVar "t") (ERange (ELit 0) (ELit 64) false) (ELet (PVar "t1") (TOther) (ELet (PVar
  "acc") (TOther) (EVar "h")
  (ESeq (EAssign (EVar "acc") (TOther) (EMethod (EVar "acc") "wrapping_add" [(ECall "sha256::bsig1"
  [(EVar "e")])]))
  (ESeq (EAssign (EVar "acc") (TOther) (EMethod (EVar "acc") "wrapping_add" [(ECall "sha256::ch"
  [(EVar "e"); (EVar "f"); (EVar "g")])]))
  (ESeq (EAssign (EVar "acc") (TOther) (EMethod (EVar "acc") "wrapping_add" [(EIndex (ECst
  "sha256::K") (EVar "t"))]))
  (ESeq (EAssign (EVar "acc") (TOther) (EMethod (EVar "acc") "wrapping_add" [(EIndex (EVar "w")
  (EVar "t"))]))
  (EVar "acc"))))))
  (ELet (PVar "t2") (TOther) (ELet (PVar "acc") (TOther) (ECall "sha256::bsig0" [(EVar "a")])
  (ESeq (EAssign (EVar "acc") (TOther) (EMethod (EVar "acc") "wrapping_add" [(ECall "sha256::maj"
  [(EVar "a"); (EVar "b"); (EVar "c")])]))
  (EVar "acc")))
  (ESeq (EAssign (EVar "h") (TOther) (EVar "g"))
  (ESeq (EAssign (EVar "g") (TOther) (EVar "f"))
  (ESeq (EAssign (EVar "f") (TOther) (EVar "e"))
  (ESeq (EAssign (EVar "e") (TOther) (ELet (PVar "acc") (TOther) (EVar "d")
  (ESeq (EAssign (EVar "acc") (TOther) (EMethod (EVar "acc") "wrapping_add" [(EVar "t1")]))
  (EVar "acc"))))
  (ESeq (EAssign (EVar "d") (TOther) (EVar "c"))
  (ESeq (EAssign (EVar "c") (TOther) (EVar "b"))
  (ESeq (EAssign (EVar "b") (TOther) (EVar "a"))
  (ESeq (EAssign (EVar "a") (TOther) (ELet (PVar "acc") (TOther) (EVar "t1")
  (ESeq (EAssign (EVar "acc") (TOther) (EMethod (EVar "acc") "wrapping_add" [(EVar "t2")]))
  (EVar "acc"))))
  EUnit)))))))))))
  (ESeq (EAssign (EIndex (EField (EVar "self") "h") (ELit 0)) (TOther) (ELet (PVar "acc") (TOther)
  (EIndex (EField (EVar "self") "h") (ELit 0))
  (ESeq (EAssign (EVar "acc") (TOther) (EMethod (EVar "acc") "wrapping_add" [(EVar "a")]))
  (EVar "acc"))))
  (ESeq (EAssign (EIndex (EField (EVar "self") "h") (ELit 1)) (TOther) (ELet (PVar "acc") (TOther)
  (EIndex (EField (EVar "self") "h") (ELit 1))
  (ESeq (EAssign (EVar "acc") (TOther) (EMethod (EVar "acc") "wrapping_add" [(EVar "b")]))
  (EVar "acc"))))
  (ESeq (EAssign (EIndex (EField (EVar "self") "h") (ELit 2)) (TOther) (ELet (PVar "acc") (TOther)
  (EIndex (EField (EVar "self") "h") (ELit 2))
  (ESeq (EAssign (EVar "acc") (TOther) (EMethod (EVar "acc") "wrapping_add" [(EVar "c")]))
  (EVar "acc"))))
  (ESeq (EAssign (EIndex (EField (EVar "self") "h") (ELit 3)) (TOther) (ELet (PVar "acc") (TOther)
  (EIndex (EField (EVar "self") "h") (ELit 3))
  (ESeq (EAssign (EVar "acc") (TOther) (EMethod (EVar "acc") "wrapping_add" [(EVar "d")]))
  (EVar "acc"))))
  (ESeq (EAssign (EIndex (EField (EVar "self") "h") (ELit 4)) (TOther) (ELet (PVar "acc") (TOther)
  (EIndex (EField (EVar "self") "h") (ELit 4))
  (ESeq (EAssign (EVar "acc") (TOther) (EMethod (EVar "acc") "wrapping_add" [(EVar "e")]))
  (EVar "acc"))))
  (ESeq (EAssign (EIndex (EField (EVar "self") "h") (ELit 5)) (TOther) (ELet (PVar "acc") (TOther)
  (EIndex (EField (EVar "self") "h") (ELit 5))
  (ESeq (EAssign (EVar "acc") (TOther) (EMethod (EVar "acc") "wrapping_add" [(EVar "f")]))
  (EVar "acc"))))
  (ESeq (EAssign (EIndex (EField (EVar "self") "h") (ELit 6)) (TOther) (ELet (PVar "acc") (TOther)
  (EIndex (EField (EVar "self") "h") (ELit 6))
  (ESeq (EAssign (EVar "acc") (TOther) (EMethod (EVar "acc") "wrapping_add" [(EVar "g")]))
  (EVar "acc"))))
  (ESeq (EAssign (EIndex (EField (EVar "self") "h") (ELit 7)) (TOther) (ELet (PVar "acc") (TOther)
  (EIndex (EField (EVar "self") "h") (ELit 7))
  (ESeq (EAssign (EVar "acc") (TOther) (EMethod (EVar "acc") "wrapping_add" [(EVar "h")]))
  (EVar "acc"))))
  EUnit)))))))))))))))))))))))))))).

(** src/sha256.rs:282-299 *)
Definition f_sha256_SHA256_update : fn := mkFn [("self", ByMut, TOther); ("data", ByVal, TSeq (TInt
  U8))] (TOther)
  (ELet (PVar "block") (TSeq (TInt U32)) (ERepeat (ELit 0) (EBin Div (ECst "sha256::BLOCK_SIZE")
  (ELit 4)))
  (EFor (PVar "b") (EVar "data") (ELet (PVar "off") (TOther) (EBin Rem (EField (EVar "self")
  "length") (ECst "sha256::BLOCK_SIZE"))
  (ESeq (EAssign (EIndex (EField (EVar "self") "buffer") (EVar "off")) (TOther) (EVar "b"))
  (ESeq (EOpAssign Add (EField (EVar "self") "length") (ELit 1))
  (ESeq (EIf (EBin Ne (EBin Rem (EField (EVar "self") "length") (ECst "sha256::BLOCK_SIZE")) (ELit
  0)) (ESeq EContinue
  EUnit) EUnit)
  (ESeq (ECall "sha256::fill_block" [(ERef (EField (EVar "self") "buffer")); (ERefMut (EVar
  "block"))])
  (ESeq (EMethod (EVar "self") "process_block" [(ERef (EVar "block"))])
  EUnit)))))))).

(** src/sha256.rs:304-372 *)
Definition f_sha256_SHA256_digest : fn := mkFn [("self", ByMut, TOther)] (TSeq (TInt U8))
  (ELet (PVar "block") (TSeq (TInt U32)) (ERepeat (ELit 0) (EBin Div (ECst "sha256::BLOCK_SIZE")
  (ELit 4)))
  (ELet (PVar "off") (TOther) (EBin Rem (EField (EVar "self") "length") (ECst "sha256::BLOCK_SIZE"))
  (ESeq (EFor (PVar "i") (ERange (EVar "off") (EMethod (EField (EVar "self") "buffer") "len" [])
  false) (ESeq (EAssign (EIndex (EField (EVar "self") "buffer") (EVar "i")) (TOther) (ELit 0))
  EUnit))
  (ELet (PVar "has_overflow") (TOther) (EBin Gt (EBin Add (EVar "off") (ELit 9)) (ECst
  "sha256::BLOCK_SIZE"))
  (ESeq (EIf (EVar "has_overflow") (ESeq (EOpAssign Or (EIndex (EField (EVar "self") "buffer")
  (EVar "off")) (ELit 128))
  (ESeq (ECall "sha256::fill_block" [(ERef (EField (EVar "self") "buffer")); (ERefMut (EVar
  "block"))])
  (ESeq (EMethod (EVar "self") "process_block" [(ERef (EVar "block"))])
  (ESeq (EAssign (EVar "off") (TOther) (ELit 0))
  (ESeq (EAssign (EField (EVar "self") "buffer") (TSeq (TInt U8)) (ERepeat (ELit 0) (ECst
  "sha256::BLOCK_SIZE")))
  EUnit))))) EUnit)
  (ELet (PVar "len_off") (TOther) (EBin Sub (EMethod (EField (EVar "self") "buffer") "len" [])
  (ELit 8))
  (ESeq (ECall "sha256::write_u64_be" [(ERefMut (ESlice (EField (EVar "self") "buffer") (Some (EVar
  "len_off")) None)); (ECast U64 (EBin Mul (EField (EVar "self") "length") (ELit 8)))])
  (ESeq (EIf (ENot (EVar "has_overflow")) (ESeq (EOpAssign Or (EIndex (EField (EVar "self")
  "buffer") (EVar "off")) (ELit 128))
  EUnit) EUnit)
  (ESeq (ECall "sha256::fill_block" [(ERef (EField (EVar "self") "buffer")); (ERefMut (EVar
  "block"))])
  (ESeq (EMethod (EVar "self") "process_block" [(ERef (EVar "block"))])
  (ELet (PVar "out") (TSeq (TInt U8)) (ERepeat (ELit 0) (ECst "sha256::DIGEST_SIZE"))
  (ESeq (EFor (PVar "i") (ERange (ELit 0) (EMethod (EField (EVar "self") "h") "len" []) false)
  (ESeq (EAssign (EIndex (EVar "out") (EBin Mul (EVar "i") (ELit 4))) (TOther) (ECast U8 (EBin Shr
  (EIndex (EField (EVar "self") "h") (EVar "i")) (ELit 24))))
  (ESeq (EAssign (EIndex (EVar "out") (EBin Add (EBin Mul (EVar "i") (ELit 4)) (ELit 1))) (TOther)
  (ECast U8 (EBin Shr (EIndex (EField (EVar "self") "h") (EVar "i")) (ELit 16))))
  (ESeq (EAssign (EIndex (EVar "out") (EBin Add (EBin Mul (EVar "i") (ELit 4)) (ELit 2))) (TOther)
  (ECast U8 (EBin Shr (EIndex (EField (EVar "self") "h") (EVar "i")) (ELit 8))))
  (ESeq (EAssign (EIndex (EVar "out") (EBin Add (EBin Mul (EVar "i") (ELit 4)) (ELit 3))) (TOther)
  (ECast U8 (EIndex (EField (EVar "self") "h") (EVar "i"))))
  EUnit)))))
  (EVar "out"))))))))))))).

(** src/sha256.rs:376-378 *)
Definition f_sha256_SHA256_default : fn := mkFn [] (TOther)
  (ECall "sha256::SHA256::new" []).

(** src/hmac.rs:46-99 *)
Definition f_hmac_HMac_new : fn := mkFn [("key", ByVal, TSeq (TInt U8))] (TOther)
  (ESeq (EIf (EBin Gt (EMethod (EVar "key") "len" []) (ECst "sha256::BLOCK_SIZE")) (ELet (PVar
  "tmp") (TOther) (ECall "sha256::SHA256::new" [])
  (ESeq (EMethod (EVar "tmp") "update" [(EVar "key")])
  (ESeq (EReturn (ECall "hmac::HMac::new" [(ERef (EMethod (EVar "tmp") "digest" []))]))
  EUnit))) EUnit)
  (ELet (PVar "block") (TSeq (TInt U8)) (ERepeat (ELit 0) (ECst "sha256::BLOCK_SIZE"))
  (ELet (PVar "inner") (TOther) (ECall "sha256::SHA256::new" [])
  (ELet (PVar "outer") (TOther) (ECall "sha256::SHA256::new" [])
  (ESeq (EMethod (ESlice (EVar "block") None (Some (EMethod (EVar "key") "len" [])))
  "copy_from_slice" [(EVar "key")])
  (ESeq (EFor (PVar "elem") (EMethod (EVar "block") "iter_mut" []) (ESeq (EOpAssign Xor (EDeref
  (EVar "elem")) (ELit 54))
  EUnit))
  (ESeq (EMethod (EVar "inner") "update" [(ERef (EVar "block"))])
  (ESeq (EFor (PVar "elem") (EMethod (EVar "block") "iter_mut" []) (ESeq (EOpAssign Xor (EDeref
  (EVar "elem")) (EBin Xor (ELit 54) (ELit 92)))
  EUnit))
  (ESeq (EMethod (EVar "outer") "update" [(ERef (EVar "block"))])
  (EStruct "hmac::HMac" [("inner", TOther, (EVar "inner")); ("outer", TOther, (EVar
  "outer"))])))))))))).

(** src/hmac.rs:104-106 *)
Definition f_hmac_HMac_update : fn := mkFn [("self", ByMut, TOther); ("data", ByVal, TSeq (TInt
  U8))] (TOther)
  (ESeq (EMethod (EField (EVar "self") "inner") "update" [(EVar "data")])
  EUnit).

(** src/hmac.rs:111-114 *)
Definition f_hmac_HMac_digest : fn := mkFn [("self", ByMut, TOther)] (TSeq (TInt U8))
  (ESeq (EMethod (EField (EVar "self") "outer") "update" [(ERef (EMethod (EField (EVar "self")
  "inner") "digest" []))])
  (EMethod (EField (EVar "self") "outer") "digest" [])).

(** src/pbkdf2.rs:32-113 *)
Definition f_pbkdf2_pbkdf2_sha256 : fn := mkFn [("password", ByVal, TSeq (TInt U8)); ("salt",
  ByVal, TSeq (TInt U8)); ("c", ByVal, TInt Usize); ("out", ByMut, TSeq (TInt U8))] (TOther)
  (ELet (PVar "l") (TInt Usize) (EBin Div (EBin Sub (EBin Add (EMethod (EVar "out") "len" []) (ECst
  "sha256::DIGEST_SIZE")) (ELit 1)) (ECst "sha256::DIGEST_SIZE"))
  (EFor (PVar "i") (ERange (ELit 1) (EVar "l") true) (ELet (PVar "ctr") (TSeq (TInt U8)) (EArray
  [(ECast U8 (EBin Shr (EVar "i") (ELit 24))); (ECast U8 (EBin Shr (EVar "i") (ELit 16))); (ECast
  U8 (EBin Shr (EVar "i") (ELit 8))); (ECast U8 (EVar "i"))])
  (ELet (PVar "hmac") (TOther) (ECall "hmac::HMac::new" [(EVar "password")])
  (ESeq (EMethod (EVar "hmac") "update" [(EVar "salt")])
  (ESeq (EMethod (EVar "hmac") "update" [(ERef (EVar "ctr"))])
  (ELet (PVar "u") (TOther) (EMethod (EVar "hmac") "digest" [])
  (ELet (PVar "t") (TOther) (EVar "u")
  (ESeq (EFor (PVar "_j") (ERange (ELit 2) (EVar "c") true) (ELet (PVar "hmac") (TOther) (ECall
  "hmac::HMac::new" [(EVar "password")])
  (ESeq (EMethod (EVar "hmac") "update" [(ERef (EVar "u"))])
  (ESeq (EAssign (EVar "u") (TOther) (EMethod (EVar "hmac") "digest" []))
  (EFor (PVar "k") (ERange (ELit 0) (EMethod (EVar "u") "len" []) false) (ESeq (EOpAssign Xor
  (EIndex (EVar "t") (EVar "k")) (EIndex (EVar "u") (EVar "k")))
  EUnit))))))
  (ELet (PVar "start") (TOther) (EBin Mul (EBin Sub (EVar "i") (ELit 1)) (ECst
  "sha256::DIGEST_SIZE"))
  (ELet (PVar "end") (TOther) (EMin (EBin Mul (EVar "i") (ECst "sha256::DIGEST_SIZE")) (EMethod
  (EVar "out") "len" []))
  (ESeq (EMethod (ESlice (EVar "out") (Some (EVar "start")) (Some (EVar "end"))) "copy_from_slice"
  [(ERef (ESlice (EVar "t") None (Some (EBin Sub (EVar "end") (EVar "start")))))])
  EUnit)))))))))))).

(** src/salsa20.rs:12-14 *)
Definition f_salsa20_rotl : fn := mkFn [("n", ByVal, TInt U32); ("s", ByVal, TInt U8)] (TInt U32)
  (EBin Or (EBin Shl (EVar "n") (EVar "s")) (EBin Shr (EVar "n") (EBin Sub (ELit 32) (EVar "s")))).

(** src/salsa20.rs:16-29 *)
Definition f_salsa20_quarterround : fn := mkFn [("y", ByVal, TSeq (TInt U32)); ("z", ByMut, TSeq
  (TInt U32))] (TOther)
  (ESeq (EAssign (EIndex (EVar "z") (ELit 1)) (TOther) (EBin Xor (EIndex (EVar "y") (ELit 1))
  (ECall "salsa20::rotl" [(ELet (PVar "acc") (TOther) (EIndex (EVar "y") (ELit 0))
  (ESeq (EAssign (EVar "acc") (TOther) (EMethod (EVar "acc") "wrapping_add" [(EIndex (EVar "y")
  (ELit 3))]))
  (EVar "acc"))); (ELit 7)])))
  (ESeq (EAssign (EIndex (EVar "z") (ELit 2)) (TOther) (EBin Xor (EIndex (EVar "y") (ELit 2))
  (ECall "salsa20::rotl" [(ELet (PVar "acc") (TOther) (EIndex (EVar "z") (ELit 1))
  (ESeq (EAssign (EVar "acc") (TOther) (EMethod (EVar "acc") "wrapping_add" [(EIndex (EVar "y")
  (ELit 0))]))
  (EVar "acc"))); (ELit 9)])))
  (ESeq (EAssign (EIndex (EVar "z") (ELit 3)) (TOther) (EBin Xor (EIndex (EVar "y") (ELit 3))
  (ECall "salsa20::rotl" [(ELet (PVar "acc") (TOther) (EIndex (EVar "z") (ELit 2))
  (ESeq (EAssign (EVar "acc") (TOther) (EMethod (EVar "acc") "wrapping_add" [(EIndex (EVar "z")
  (ELit 1))]))
  (EVar "acc"))); (ELit 13)])))
  (ESeq (EAssign (EIndex (EVar "z") (ELit 0)) (TOther) (EBin Xor (EIndex (EVar "y") (ELit 0))
  (ECall "salsa20::rotl" [(ELet (PVar "acc") (TOther) (EIndex (EVar "z") (ELit 3))
  (ESeq (EAssign (EVar "acc") (TOther) (EMethod (EVar "acc") "wrapping_add" [(EIndex (EVar "z")
  (ELit 2))]))
  (EVar "acc"))); (ELit 18)])))
  EUnit)))).

(** src/salsa20.rs:31-71 *)
Definition f_salsa20_rowround : fn := mkFn [("y", ByVal, TSeq (TInt U32)); ("z", ByMut, TSeq (TInt
  U32))] (TOther)
  (ELet (PVar "s0") (TSeq (TInt U32)) (EArray [(EIndex (EVar "y") (ELit 0)); (EIndex (EVar "y")
  (ELit 1)); (EIndex (EVar "y") (ELit 2)); (EIndex (EVar "y") (ELit 3))])
  (ELet (PVar "s1") (TSeq (TInt U32)) (EArray [(EIndex (EVar "y") (ELit 5)); (EIndex (EVar "y")
  (ELit 6)); (EIndex (EVar "y") (ELit 7)); (EIndex (EVar "y") (ELit 4))])
  (ELet (PVar "s2") (TSeq (TInt U32)) (EArray [(EIndex (EVar "y") (ELit 10)); (EIndex (EVar "y")
  (ELit 11)); (EIndex (EVar "y") (ELit 8)); (EIndex (EVar "y") (ELit 9))])
  (ELet (PVar "s3") (TSeq (TInt U32)) (EArray [(EIndex (EVar "y") (ELit 15)); (EIndex (EVar "y")
  (ELit 12)); (EIndex (EVar "y") (ELit 13)); (EIndex (EVar "y") (ELit 14))])
  (ELet (PVar "t") (TSeq (TInt U32)) (ERepeat (ELit 0) (ELit 4))
  (ESeq (ECall "salsa20::quarterround" [(ERef (EVar "s0")); (ERefMut (EVar "t"))])
  (ESeq (EAssign (EIndex (EVar "z") (ELit 0)) (TOther) (EIndex (EVar "t") (ELit 0)))
  (ESeq (EAssign (EIndex (EVar "z") (ELit 1)) (TOther) (EIndex (EVar "t") (ELit 1)))
  (ESeq (EAssign (EIndex (EVar "z") (ELit 2)) (TOther) (EIndex (EVar "t") (ELit 2)))
  (ESeq (EAssign (EIndex (EVar "z") (ELit 3)) (TOther) (EIndex (EVar "t") (ELit 3)))
  (ESeq (ECall "salsa20::quarterround" [(ERef (EVar "s1")); (ERefMut (EVar "t"))])
  (ESeq (EAssign (EIndex (EVar "z") (ELit 5)) (TOther) (EIndex (EVar "t") (ELit 0)))
  (ESeq (EAssign (EIndex (EVar "z") (ELit 6)) (TOther) (EIndex (EVar "t") (ELit 1)))
  (ESeq (EAssign (EIndex (EVar "z") (ELit 7)) (TOther) (EIndex (EVar "t") (ELit 2)))
  (ESeq (EAssign (EIndex (EVar "z") (ELit 4)) (TOther) (EIndex (EVar "t") (ELit 3)))
  (ESeq (ECall "salsa20::quarterround" [(ERef (EVar "s2")); (ERefMut (EVar "t"))])
  (ESeq (EAssign (EIndex (EVar "z") (ELit 10)) (TOther) (EIndex (EVar "t") (ELit 0)))
  (ESeq (EAssign (EIndex (EVar "z") (ELit 11)) (TOther) (EIndex (EVar "t") (ELit 1)))
  (ESeq (EAssign (EIndex (EVar "z") (ELit 8)) (TOther) (EIndex (EVar "t") (ELit 2)))
  (ESeq (EAssign (EIndex (EVar "z") (ELit 9)) (TOther) (EIndex (EVar "t") (ELit 3)))
  (ESeq (ECall "salsa20::quarterround" [(ERef (EVar "s3")); (ERefMut (EVar "t"))])
  (ESeq (EAssign (EIndex (EVar "z") (ELit 15)) (TOther) (EIndex (EVar "t") (ELit 0)))
  (ESeq (EAssign (EIndex (EVar "z") (ELit 12)) (TOther) (EIndex (EVar "t") (ELit 1)))
  (ESeq (EAssign (EIndex (EVar "z") (ELit 13)) (TOther) (EIndex (EVar "t") (ELit 2)))
  (ESeq (EAssign (EIndex (EVar "z") (ELit 14)) (TOther) (EIndex (EVar "t") (ELit 3)))
  EUnit))))))))))))))))))))))))).

(** src/salsa20.rs:73-113 *)
Definition f_salsa20_columnround : fn := mkFn [("x", ByVal, TSeq (TInt U32)); ("y", ByMut, TSeq
  (TInt U32))] (TOther)
  (ELet (PVar "s0") (TSeq (TInt U32)) (EArray [(EIndex (EVar "x") (ELit 0)); (EIndex (EVar "x")
  (ELit 4)); (EIndex (EVar "x") (ELit 8)); (EIndex (EVar "x") (ELit 12))])
  (ELet (PVar "s1") (TSeq (TInt U32)) (EArray [(EIndex (EVar "x") (ELit 5)); (EIndex (EVar "x")
  (ELit 9)); (EIndex (EVar "x") (ELit 13)); (EIndex (EVar "x") (ELit 1))])
  (ELet (PVar "s2") (TSeq (TInt U32)) (EArray [(EIndex (EVar "x") (ELit 10)); (EIndex (EVar "x")
  (ELit 14)); (EIndex (EVar "x") (ELit 2)); (EIndex (EVar "x") (ELit 6))])
  (ELet (PVar "s3") (TSeq (TInt U32)) (EArray [(EIndex (EVar "x") (ELit 15)); (EIndex (EVar "x")
  (ELit 3)); (EIndex (EVar "x") (ELit 7)); (EIndex (EVar "x") (ELit 11))])
  (ELet (PVar "t") (TSeq (TInt U32)) (ERepeat (ELit 0) (ELit 4))
  (ESeq (ECall "salsa20::quarterround" [(ERef (EVar "s0")); (ERefMut (EVar "t"))])
  (ESeq (EAssign (EIndex (EVar "y") (ELit 0)) (TOther) (EIndex (EVar "t") (ELit 0)))
  (ESeq (EAssign (EIndex (EVar "y") (ELit 4)) (TOther) (EIndex (EVar "t") (ELit 1)))
  (ESeq (EAssign (EIndex (EVar "y") (ELit 8)) (TOther) (EIndex (EVar "t") (ELit 2)))
  (ESeq (EAssign (EIndex (EVar "y") (ELit 12)) (TOther) (EIndex (EVar "t") (ELit 3)))
  (ESeq (ECall "salsa20::quarterround" [(ERef (EVar "s1")); (ERefMut (EVar "t"))])
  (ESeq (EAssign (EIndex (EVar "y") (ELit 5)) (TOther) (EIndex (EVar "t") (ELit 0)))
  (ESeq (EAssign (EIndex (EVar "y") (ELit 9)) (TOther) (EIndex (EVar "t") (ELit 1)))
  (ESeq (EAssign (EIndex (EVar "y") (ELit 13)) (TOther) (EIndex (EVar "t") (ELit 2)))
  (ESeq (EAssign (EIndex (EVar "y") (ELit 1)) (TOther) (EIndex (EVar "t") (ELit 3)))
  (ESeq (ECall "salsa20::quarterround" [(ERef (EVar "s2")); (ERefMut (EVar "t"))])
  (ESeq (EAssign (EIndex (EVar "y") (ELit 10)) (TOther) (EIndex (EVar "t") (ELit 0)))
  (ESeq (EAssign (EIndex (EVar "y") (ELit 14)) (TOther) (EIndex (EVar "t") (ELit 1)))
  (ESeq (EAssign (EIndex (EVar "y") (ELit 2)) (TOther) (EIndex (EVar "t") (ELit 2)))
  (ESeq (EAssign (EIndex (EVar "y") (ELit 6)) (TOther) (EIndex (EVar "t") (ELit 3)))
  (ESeq (ECall "salsa20::quarterround" [(ERef (EVar "s3")); (ERefMut (EVar "t"))])
  (ESeq (EAssign (EIndex (EVar "y") (ELit 15)) (TOther) (EIndex (EVar "t") (ELit 0)))
  (ESeq (EAssign (EIndex (EVar "y") (ELit 3)) (TOther) (EIndex (EVar "t") (ELit 1)))
  (ESeq (EAssign (EIndex (EVar "y") (ELit 7)) (TOther) (EIndex (EVar "t") (ELit 2)))
  (ESeq (EAssign (EIndex (EVar "y") (ELit 11)) (TOther) (EIndex (EVar "t") (ELit 3)))
  EUnit))))))))))))))))))))))))).

(** src/salsa20.rs:115-123 *)
Definition f_salsa20_doubleround : fn := mkFn [("x", ByVal, TSeq (TInt U32)); ("y", ByMut, TSeq
  (TInt U32))] (TOther)
  (ELet (PVar "t") (TSeq (TInt U32)) (ERepeat (ELit 0) (ELit 16))
  (ESeq (ECall "salsa20::columnround" [(EVar "x"); (ERefMut (EVar "t"))])
  (ESeq (ECall "salsa20::rowround" [(ERef (EVar "t")); (EVar "y")])
  EUnit))).

(** src/salsa20.rs:125-131 *)
Definition f_salsa20_littleendian : fn := mkFn [("b", ByVal, TSeq (TInt U8))] (TInt U32)
  (EBin Or (EBin Or (EBin Or (EFrom U32 (EIndex (EVar "b") (ELit 0))) (EBin Shl (EFrom U32 (EIndex
  (EVar "b") (ELit 1))) (ELit 8))) (EBin Shl (EFrom U32 (EIndex (EVar "b") (ELit 2))) (ELit 16)))
  (EBin Shl (EFrom U32 (EIndex (EVar "b") (ELit 3))) (ELit 24))).

(** src/salsa20.rs:133-138 *)
Definition f_salsa20_littleendian_inv : fn := mkFn [("x", ByVal, TInt U32); ("y", ByMut, TSeq (TInt
  U8))] (TOther)
  (ESeq (EAssign (EIndex (EVar "y") (ELit 0)) (TOther) (ECast U8 (EVar "x")))
  (ESeq (EAssign (EIndex (EVar "y") (ELit 1)) (TOther) (ECast U8 (EBin Shr (EVar "x") (ELit 8))))
  (ESeq (EAssign (EIndex (EVar "y") (ELit 2)) (TOther) (ECast U8 (EBin Shr (EVar "x") (ELit 16))))
  (ESeq (EAssign (EIndex (EVar "y") (ELit 3)) (TOther) (ECast U8 (EBin Shr (EVar "x") (ELit 24))))
  EUnit)))).

(** src/salsa20.rs:164-207 *)
Definition f_salsa20_salsa20 : fn := mkFn [("input", ByVal, TSeq (TInt U8)); ("rounds", ByVal, TInt
  Usize); ("output", ByMut, TSeq (TInt U8))] (TOther)
  (ELet (PVar "x") (TSeq (TInt U32)) (ERepeat (ELit 0) (ELit 16))
  (ESeq (EFor (PTup [PVar "i"; PVar "elem"]) (EMethod (EMethod (EVar "x") "iter_mut" [])
  "enumerate" []) (ELet (PVar "from") (TOther) (EBin Mul (EVar "i") (ELit 4))
  (ELet (PVar "to") (TOther) (EBin Add (EVar "from") (ELit 4))
  (ESeq (EAssign (EDeref (EVar "elem")) (TOther) (ECall "salsa20::littleendian" [(ERef (ESlice
  (EVar "input") (Some (EVar "from")) (Some (EVar "to"))))]))
  EUnit))))
  (ELet (PVar "z") (TOther) (EVar "x")
  (ESeq (EFor (PWild) (ERange (ELit 0) (EVar "rounds") false) (ELet (PVar "t") (TSeq (TInt U32))
  (ERepeat (ELit 0) (ELit 16))
  (ESeq (ECall "salsa20::doubleround" [(ERef (EVar "z")); (ERefMut (EVar "t"))])
  (ESeq (EAssign (EVar "z") (TOther) (EVar "t"))
  EUnit))))
  (EFor (PTup [PTup [PVar "i"; PVar "x_elem"]; PVar "z_elem"]) (EMethod (EMethod (EMethod (EVar
  "x") "iter" []) "enumerate" []) "zip" [(EMethod (EVar "z") "iter" [])]) (ELet (PVar "from")
  (TOther) (EBin Mul (EVar "i") (ELit 4))
  (ELet (PVar "to") (TOther) (EBin Add (EVar "from") (ELit 4))
  (ESeq (ECall "salsa20::littleendian_inv" [(ELet (PVar "acc") (TOther) (EVar "x_elem")
  (ESeq (EAssign (EVar "acc") (TOther) (EMethod (EVar "acc") "wrapping_add" [(EVar "z_elem")]))
  (EVar "acc"))); (ERefMut (ESlice (EVar "output") (Some (EVar "from")) (Some (EVar "to"))))])
  EUnit)))))))).

(** src/scrypt.rs:31-33 *)
Definition f_scrypt_ScryptError_fmt : fn := mkFn [("self", ByVal, TOther); ("f", ByMut, TOther)]
  (TOther)
  (EWrite (EVar "f") "ScryptError: {}" [(EMethod (EVar "self") "description" [])]).

(** src/scrypt.rs:37-44 *)
Definition f_scrypt_ScryptError_description : fn := mkFn [("self", ByVal, TOther)] (TOther)
  (EMatch (EVar "self") [(PCon "scrypt::ScryptError::RIsTooSmall" [], (EStr
  "`r` must be larger than 1")); (PCon "scrypt::ScryptError::NIsTooSmall" [], (EStr
  "`n` must be larger than 1")); (PCon "scrypt::ScryptError::NIsNotAPowerOfTwo" [], (EStr
  "`n` must be a power of two")); (PCon "scrypt::ScryptError::PIsTooSmall" [], (EStr
  "`p` must be larger than 1"))]).

(** src/scrypt.rs:73-75 *)
Definition f_scrypt_block_xor : fn := mkFn [("a", ByVal, TSeq (TInt U8)); ("b", ByVal, TSeq (TInt
  U8))] (TSeq (TInt U8))
  (EMethod (EMap (EMethod (EMethod (EVar "a") "iter" []) "zip" [(EMethod (EVar "b") "iter" [])])
  (PTup [PVar "a"; PVar "b"]) (EBin Xor (EVar "a") (EVar "b"))) "collect" []).

(** src/scrypt.rs:77-89 *)
Definition f_scrypt_integerify : fn := mkFn [("x", ByVal, TSeq (TSeq (TInt U8)))] (TInt U64)
  (ELet (PVar "last") (TOther) (ERef (EIndex (EVar "x") (EBin Sub (EMethod (EVar "x") "len" [])
  (ELit 1))))
  (ELet (PVar "tail") (TOther) (ERef (ESlice (EVar "last") (Some (EBin Sub (EMethod (EVar "last")
  "len" []) (ECst "salsa20::BLOCK_SIZE"))) None))
  (EBin Or (EBin Or (EBin Or (EBin Or (EBin Or (EBin Or (EBin Or (EFrom U64 (EIndex (EVar "tail")
  (ELit 0))) (EBin Shl (EFrom U64 (EIndex (EVar "tail") (ELit 1))) (ELit 8))) (EBin Shl (EFrom U64
  (EIndex (EVar "tail") (ELit 2))) (ELit 16))) (EBin Shl (EFrom U64 (EIndex (EVar "tail") (ELit
  3))) (ELit 24))) (EBin Shl (EFrom U64 (EIndex (EVar "tail") (ELit 4))) (ELit 32))) (EBin Shl
  (EFrom U64 (EIndex (EVar "tail") (ELit 5))) (ELit 40))) (EBin Shl (EFrom U64 (EIndex (EVar
  "tail") (ELit 6))) (ELit 48))) (EBin Shl (EFrom U64 (EIndex (EVar "tail") (ELit 7))) (ELit
  56))))).

(** src/scrypt.rs:103-105 *)
Definition f_scrypt_Scrypt_new : fn := mkFn [("r", ByVal, TInt Usize); ("n", ByVal, TInt Usize);
  ("p", ByVal, TInt Usize)] (TOther)
  (EStruct "scrypt::Scrypt" [("r", TInt Usize, (EVar "r")); ("n", TInt Usize, (EVar "n")); ("p",
  TInt Usize, (EVar "p"))]).

(** src/scrypt.rs:107-160 *)
Definition f_scrypt_Scrypt_block_mix : fn := mkFn [("self", ByVal, TOther); ("b", ByVal, TSeq (TSeq
  (TInt U8)))] (TSeq (TSeq (TInt U8)))
  (ELet (PVar "x") (TOther) (EMethod (EIndex (EVar "b") (EBin Sub (EBin Mul (ELit 2) (EField (EVar
  "self") "r")) (ELit 1))) "clone" [])
  (ELet (PVar "y") (TSeq (TSeq (TInt U8))) (ECapacity (TSeq (TInt U8)) (EBin Mul (ELit 2) (EField
  (EVar "self") "r")))
  (ESeq (EFor (PVar "b_elem") (EMethod (EVar "b") "iter" []) (ELet (PVar "t") (TOther) (ECall
  "scrypt::block_xor" [(ERef (EVar "x")); (EVar "b_elem")])
  (ESeq (ECall "salsa20::salsa20" [(ERef (EVar "t")); (ECst "scrypt::SALSA_ROUNDS"); (ERefMut (EVar
  "x"))])
  (ESeq (EMethod (EVar "y") "push" [(EMethod (EVar "x") "clone" [])])
  EUnit))))
  (ELet (PVar "bs_head") (TSeq (TSeq (TInt U8))) (ECapacity (TSeq (TInt U8)) (EBin Mul (ELit 2)
  (EField (EVar "self") "r")))
  (ELet (PVar "bs_tail") (TSeq (TSeq (TInt U8))) (ECapacity (TSeq (TInt U8)) (EField (EVar "self")
  "r"))
  (ESeq (EFor (PTup [PVar "i"; PVar "y_elem"]) (EMethod (EMethod (EVar "y") "into_iter" [])
  "enumerate" []) (EIf (EBin Eq (EBin Rem (EVar "i") (ELit 2)) (ELit 0)) (ESeq (EMethod (EVar
  "bs_head") "push" [(EVar "y_elem")])
  EUnit) (ESeq (EMethod (EVar "bs_tail") "push" [(EVar "y_elem")])
  EUnit)))
  (ESeq (EMethod (EVar "bs_head") "append" [(ERefMut (EVar "bs_tail"))])
  (EVar "bs_head")))))))).

(** src/scrypt.rs:162-219 *)
Definition f_scrypt_Scrypt_ro_mix : fn := mkFn [("self", ByVal, TOther); ("b", ByVal, TSeq (TSeq
  (TInt U8)))] (TSeq (TSeq (TInt U8)))
  (ELet (PVar "x") (TOther) (EVar "b")
  (ELet (PVar "v") (TSeq (TSeq (TSeq (TInt U8)))) (ECapacity (TSeq (TSeq (TInt U8))) (EField (EVar
  "self") "n"))
  (ESeq (EFor (PVar "_i") (ERange (ELit 0) (EField (EVar "self") "n") false) (ELet (PVar "t")
  (TOther) (EMethod (EVar "self") "block_mix" [(ERef (EVar "x"))])
  (ESeq (EMethod (EVar "v") "push" [(EVar "x")])
  (ESeq (EAssign (EVar "x") (TOther) (EVar "t"))
  EUnit))))
  (ESeq (EFor (PVar "_i") (ERange (ELit 0) (EField (EVar "self") "n") false) (ELet (PVar "j")
  (TOther) (EBin Rem (ECast Usize (ECall "scrypt::integerify" [(ERef (EVar "x"))])) (EField (EVar
  "self") "n"))
  (ELet (PVar "t") (TSeq (TSeq (TInt U8))) (EMethod (EMap (EMethod (EMethod (EVar "x") "iter" [])
  "zip" [(EMethod (EIndex (EVar "v") (EVar "j")) "iter" [])]) (PTup [PVar "x_block"; PVar
  "v_block"]) (ECall "scrypt::block_xor" [(EVar "x_block"); (EVar "v_block")])) "collect" [])
  (ESeq (EAssign (EVar "x") (TOther) (EMethod (EVar "self") "block_mix" [(ERef (EVar "t"))]))
  EUnit))))
  (EVar "x"))))).

(** src/scrypt.rs:224-300 *)
Definition f_scrypt_Scrypt_derive : fn := mkFn [("self", ByVal, TOther); ("passphrase", ByVal, TSeq
  (TInt U8)); ("salt", ByVal, TSeq (TInt U8)); ("out", ByMut, TSeq (TInt U8))] (TOther)
  (ESeq (EIf (EBin Lt (EField (EVar "self") "r") (ELit 1)) (ESeq (EReturn (ECon "Err" [(ECon
  "scrypt::ScryptError::RIsTooSmall" [])]))
  EUnit) EUnit)
  (ESeq (EIf (EBin Lt (EField (EVar "self") "n") (ELit 1)) (ESeq (EReturn (ECon "Err" [(ECon
  "scrypt::ScryptError::NIsTooSmall" [])]))
  EUnit) EUnit)
  (ESeq (EIf (EBin Ne (EBin And (EBin Sub (EField (EVar "self") "n") (ELit 1)) (EField (EVar
  "self") "n")) (ELit 0)) (ESeq (EReturn (ECon "Err" [(ECon
  "scrypt::ScryptError::NIsNotAPowerOfTwo" [])]))
  EUnit) EUnit)
  (ESeq (EIf (EBin Lt (EField (EVar "self") "p") (ELit 1)) (ESeq (EReturn (ECon "Err" [(ECon
  "scrypt::ScryptError::PIsTooSmall" [])]))
  EUnit) EUnit)
  (ELet (PVar "raw_b") (TSeq (TInt U8)) (EVecRepeat (ELit 0) (EBin Mul (EBin Mul (EBin Mul (EField
  (EVar "self") "p") (ELit 2)) (ECst "scrypt::BLOCK_SIZE")) (EField (EVar "self") "r")))
  (ESeq (ECall "pbkdf2::pbkdf2_sha256" [(EVar "passphrase"); (EVar "salt"); (ECst
  "scrypt::PBKDF2_ROUNDS"); (ERefMut (EVar "raw_b"))])
  (ELet (PVar "b") (TSeq (TSeq (TSeq (TInt U8)))) (EMethod (EMap (EMethod (EVar "raw_b")
  "chunks_exact" [(EBin Mul (EBin Mul (ELit 2) (ECst "scrypt::BLOCK_SIZE")) (EField (EVar "self")
  "r"))]) (PVar "chunk") (EMethod (EMap (EMethod (EVar "chunk") "chunks_exact" [(ECst
  "scrypt::BLOCK_SIZE")]) (PVar "sub_chunk") (EMethod (EVar "sub_chunk") "to_vec" [])) "collect"
  [])) "collect" [])
  (ESeq (EAssign (EVar "b") (TSeq (TSeq (TSeq (TInt U8)))) (EMethod (EMap (EMethod (EVar "b")
  "into_iter" []) (PVar "elem") (EMethod (EVar "self") "ro_mix" [(EVar "elem")])) "collect" []))
  (ELet (PVar "b_salt") (TSeq (TInt U8)) (EMethod (EMethod (EMethod (EMethod (EVar "b") "into_iter"
  []) "flatten" []) "flatten" []) "collect" [])
  (ESeq (ECall "pbkdf2::pbkdf2_sha256" [(EVar "passphrase"); (ERef (EVar "b_salt")); (ECst
  "scrypt::PBKDF2_ROUNDS"); (EVar "out")])
  (ECon "Ok" [EUnit]))))))))))).

(** src/aes.rs:74-80 *)
Definition f_aes_double : fn := mkFn [("b", ByVal, TInt U8)] (TInt U8)
  (EIf (EBin Eq (EBin And (EVar "b") (ELit 128)) (ELit 0)) (EBin Shl (EVar "b") (ELit 1)) (EBin Xor
  (EBin Shl (EVar "b") (ELit 1)) (ELit 27))).

(** src/aes.rs:83-94 *)
Definition f_aes_mul : fn := mkFn [("b", ByVal, TInt U8); ("by", ByVal, TInt Usize)] (TInt U8)
  (ELet (PVar "res") (TInt U8) (ELit 0)
  (ELet (PVar "power") (TOther) (EVar "b")
  (ESeq (EWhile (EBin Ne (EVar "by") (ELit 0)) (ESeq (EIf (EBin Ne (EBin And (EVar "by") (ELit 1))
  (ELit 0)) (ESeq (EOpAssign Xor (EVar "res") (EVar "power"))
  EUnit) EUnit)
  (ESeq (EAssign (EVar "power") (TOther) (ECall "aes::double" [(EVar "power")]))
  (ESeq (EOpAssign Shr (EVar "by") (ELit 1))
  EUnit))))
  (EVar "res")))).

(** src/aes.rs:96-106 *)
Definition f_aes_sub_word : fn := mkFn [("b", ByVal, TInt U32)] (TInt U32)
  (ELet (PVar "b0") (TOther) (ECast Usize (EBin Shr (EVar "b") (ELit 24)))
  (ELet (PVar "b1") (TOther) (ECast Usize (EBin And (EBin Shr (EVar "b") (ELit 16)) (ELit 255)))
  (ELet (PVar "b2") (TOther) (ECast Usize (EBin And (EBin Shr (EVar "b") (ELit 8)) (ELit 255)))
  (ELet (PVar "b3") (TOther) (ECast Usize (EBin And (EVar "b") (ELit 255)))
  (EBin Or (EBin Or (EBin Or (EBin Shl (EFrom U32 (EIndex (ECst "aes::SBOX") (EVar "b0"))) (ELit
  24)) (EBin Shl (EFrom U32 (EIndex (ECst "aes::SBOX") (EVar "b1"))) (ELit 16))) (EBin Shl (EFrom
  U32 (EIndex (ECst "aes::SBOX") (EVar "b2"))) (ELit 8))) (EFrom U32 (EIndex (ECst "aes::SBOX")
  (EVar "b3")))))))).

(** src/aes.rs:108-110 *)
Definition f_aes_rot_word : fn := mkFn [("b", ByVal, TInt U32)] (TInt U32)
  (EBin Or (EBin Shl (EVar "b") (ELit 8)) (EBin Shr (EVar "b") (ELit 24))).

(** src/aes.rs:112-160 *)
Definition f_aes_expand_key : fn := mkFn [("key", ByVal, TSeq (TInt U8)); ("round_count", ByVal,
  TInt Usize)] (TSeq (TInt U32))
  (ELet (PVar "nk") (TOther) (EBin Div (EMethod (EVar "key") "len" []) (ELit 4))
  (ELet (PVar "w") (TOther) (ECapacity (TInt U32) (EBin Mul (ECst "aes::NB") (EBin Add (EVar
  "round_count") (ELit 1))))
  (ELet (PVar "i") (TInt Usize) (ELit 0)
  (ESeq (EWhile (EBin Lt (EVar "i") (EVar "nk")) (ESeq (EMethod (EVar "w") "push" [(EBin Or (EBin
  Or (EBin Or (EBin Shl (EFrom U32 (EIndex (EVar "key") (EBin Mul (ELit 4) (EVar "i")))) (ELit 24))
  (EBin Shl (EFrom U32 (EIndex (EVar "key") (EBin Add (EBin Mul (ELit 4) (EVar "i")) (ELit 1))))
  (ELit 16))) (EBin Shl (EFrom U32 (EIndex (EVar "key") (EBin Add (EBin Mul (ELit 4) (EVar "i"))
  (ELit 2)))) (ELit 8))) (EFrom U32 (EIndex (EVar "key") (EBin Add (EBin Mul (ELit 4) (EVar "i"))
  (ELit 3)))))])
  (ESeq (EOpAssign Add (EVar "i") (ELit 1))
  EUnit)))
  (ESeq (EWhile (EBin Lt (EVar "i") (EBin Mul (ECst "aes::NB") (EBin Add (EVar "round_count") (ELit
  1)))) (ELet (PVar "temp") (TOther) (EIndex (EVar "w") (EBin Sub (EVar "i") (ELit 1)))
  (ESeq (EIf (EBin Eq (EBin Rem (EVar "i") (EVar "nk")) (ELit 0)) (ESeq (EAssign (EVar "temp")
  (TOther) (EBin Xor (ECall "aes::sub_word" [(ECall "aes::rot_word" [(EVar "temp")])]) (EIndex
  (ECst "aes::RCON") (EBin Sub (EBin Div (EVar "i") (EVar "nk")) (ELit 1)))))
  EUnit) (EIf (EBin AndAlso (EBin Gt (EVar "nk") (ELit 6)) (EBin Eq (EBin Rem (EVar "i") (EVar
  "nk")) (ELit 4))) (ESeq (EAssign (EVar "temp") (TOther) (ECall "aes::sub_word" [(EVar "temp")]))
  EUnit) EUnit))
  (ESeq (EMethod (EVar "w") "push" [(EBin Xor (EIndex (EVar "w") (EBin Sub (EVar "i") (EVar "nk")))
  (EVar "temp"))])
  (ESeq (EOpAssign Add (EVar "i") (ELit 1))
  EUnit)))))
  (EVar "w")))))).

(** src/aes.rs:197-199 *)
Definition f_aes_AESEncrypt_lookup_sbox : fn := mkFn [("b", ByVal, TInt U8)] (TInt U8)
  (EIndex (ECst "aes::SBOX") (EFrom Usize (EVar "b"))).

(** src/aes.rs:201-208 *)
Definition f_aes_AESEncrypt_mix_column : fn := mkFn [("col", ByVal, TSeq (TInt U8))] (TSeq (TInt
  U8))
  (EArray [(EBin Xor (EBin Xor (EBin Xor (ECall "aes::mul" [(EIndex (EVar "col") (ELit 0)); (ELit
  2)]) (ECall "aes::mul" [(EIndex (EVar "col") (ELit 1)); (ELit 3)])) (EIndex (EVar "col") (ELit
  2))) (EIndex (EVar "col") (ELit 3))); (EBin Xor (EBin Xor (EBin Xor (ECall "aes::mul" [(EIndex
  (EVar "col") (ELit 1)); (ELit 2)]) (ECall "aes::mul" [(EIndex (EVar "col") (ELit 2)); (ELit 3)]))
  (EIndex (EVar "col") (ELit 3))) (EIndex (EVar "col") (ELit 0))); (EBin Xor (EBin Xor (EBin Xor
  (ECall "aes::mul" [(EIndex (EVar "col") (ELit 2)); (ELit 2)]) (ECall "aes::mul" [(EIndex (EVar
  "col") (ELit 3)); (ELit 3)])) (EIndex (EVar "col") (ELit 0))) (EIndex (EVar "col") (ELit 1)));
  (EBin Xor (EBin Xor (EBin Xor (ECall "aes::mul" [(EIndex (EVar "col") (ELit 3)); (ELit 2)])
  (ECall "aes::mul" [(EIndex (EVar "col") (ELit 0)); (ELit 3)])) (EIndex (EVar "col") (ELit 1)))
  (EIndex (EVar "col") (ELit 2)))]).

(** src/aes.rs:210-217 *)
Definition f_aes_AESEncrypt_shift_rows : fn := mkFn [("s", ByVal, TSeq (TSeq (TInt U8)))] (TSeq
  (TSeq (TInt U8)))
  (EArray [(EArray [(EIndex (EIndex (EVar "s") (ELit 0)) (ELit 0)); (EIndex (EIndex (EVar "s")
  (ELit 1)) (ELit 1)); (EIndex (EIndex (EVar "s") (ELit 2)) (ELit 2)); (EIndex (EIndex (EVar "s")
  (ELit 3)) (ELit 3))]); (EArray [(EIndex (EIndex (EVar "s") (ELit 1)) (ELit 0)); (EIndex (EIndex
  (EVar "s") (ELit 2)) (ELit 1)); (EIndex (EIndex (EVar "s") (ELit 3)) (ELit 2)); (EIndex (EIndex
  (EVar "s") (ELit 0)) (ELit 3))]); (EArray [(EIndex (EIndex (EVar "s") (ELit 2)) (ELit 0));
  (EIndex (EIndex (EVar "s") (ELit 3)) (ELit 1)); (EIndex (EIndex (EVar "s") (ELit 0)) (ELit 2));
  (EIndex (EIndex (EVar "s") (ELit 1)) (ELit 3))]); (EArray [(EIndex (EIndex (EVar "s") (ELit 3))
  (ELit 0)); (EIndex (EIndex (EVar "s") (ELit 0)) (ELit 1)); (EIndex (EIndex (EVar "s") (ELit 1))
  (ELit 2)); (EIndex (EIndex (EVar "s") (ELit 2)) (ELit 3))])]).

(** src/aes.rs:169-176 *)
Definition f_aes_AESEncrypt_add_round_key : fn := mkFn [("s", ByMut, TSeq (TSeq (TInt U8)));
  ("round_key", ByVal, TSeq (TInt U32))] (TOther)
  (EFor (PTup [PVar "col"; PVar "key"]) (EMethod (EMethod (EVar "s") "iter_mut" []) "zip" [(EVar
  "round_key")]) (ESeq (EOpAssign Xor (EIndex (EVar "col") (ELit 0)) (ECast U8 (EBin Shr (EVar
  "key") (ELit 24))))
  (ESeq (EOpAssign Xor (EIndex (EVar "col") (ELit 1)) (ECast U8 (EBin And (EBin Shr (EVar "key")
  (ELit 16)) (ELit 255))))
  (ESeq (EOpAssign Xor (EIndex (EVar "col") (ELit 2)) (ECast U8 (EBin And (EBin Shr (EVar "key")
  (ELit 8)) (ELit 255))))
  (ESeq (EOpAssign Xor (EIndex (EVar "col") (ELit 3)) (ECast U8 (EBin And (EVar "key") (ELit 255))))
  EUnit))))).

(** src/aes.rs:178-184 *)
Definition f_aes_AESEncrypt_sub_bytes : fn := mkFn [("s", ByMut, TSeq (TSeq (TInt U8)))] (TOther)
  (EFor (PVar "col") (EMethod (EVar "s") "iter_mut" []) (EFor (PVar "cell") (EMethod (EVar "col")
  "iter_mut" []) (ESeq (EAssign (EDeref (EVar "cell")) (TOther) (ECall
  "aes::AESEncrypt::lookup_sbox" [(EDeref (EVar "cell"))]))
  EUnit))).

(** src/aes.rs:186-190 *)
Definition f_aes_AESEncrypt_mix_columns : fn := mkFn [("s", ByMut, TSeq (TSeq (TInt U8)))] (TOther)
  (EFor (PVar "column") (EMethod (EVar "s") "iter_mut" []) (ESeq (EAssign (EDeref (EVar "column"))
  (TOther) (ECall "aes::AESEncrypt::mix_column" [(EDeref (EVar "column"))]))
  EUnit)).

(** src/aes.rs:221-223 *)
Definition f_aes_AESDecrypt_lookup_sbox : fn := mkFn [("b", ByVal, TInt U8)] (TInt U8)
  (EIndex (ECst "aes::INV_SBOX") (EFrom Usize (EVar "b"))).

(** src/aes.rs:225-232 *)
Definition f_aes_AESDecrypt_mix_column : fn := mkFn [("col", ByVal, TSeq (TInt U8))] (TSeq (TInt
  U8))
  (EArray [(EBin Xor (EBin Xor (EBin Xor (ECall "aes::mul" [(EIndex (EVar "col") (ELit 0)); (ELit
  14)]) (ECall "aes::mul" [(EIndex (EVar "col") (ELit 1)); (ELit 11)])) (ECall "aes::mul" [(EIndex
  (EVar "col") (ELit 2)); (ELit 13)])) (ECall "aes::mul" [(EIndex (EVar "col") (ELit 3)); (ELit
  9)])); (EBin Xor (EBin Xor (EBin Xor (ECall "aes::mul" [(EIndex (EVar "col") (ELit 1)); (ELit
  14)]) (ECall "aes::mul" [(EIndex (EVar "col") (ELit 2)); (ELit 11)])) (ECall "aes::mul" [(EIndex
  (EVar "col") (ELit 3)); (ELit 13)])) (ECall "aes::mul" [(EIndex (EVar "col") (ELit 0)); (ELit
  9)])); (EBin Xor (EBin Xor (EBin Xor (ECall "aes::mul" [(EIndex (EVar "col") (ELit 2)); (ELit
  14)]) (ECall "aes::mul" [(EIndex (EVar "col") (ELit 3)); (ELit 11)])) (ECall "aes::mul" [(EIndex
  (EVar "col") (ELit 0)); (ELit 13)])) (ECall "aes::mul" [(EIndex (EVar "col") (ELit 1)); (ELit
  9)])); (EBin Xor (EBin Xor (EBin Xor (ECall "aes::mul" [(EIndex (EVar "col") (ELit 3)); (ELit
  14)]) (ECall "aes::mul" [(EIndex (EVar "col") (ELit 0)); (ELit 11)])) (ECall "aes::mul" [(EIndex
  (EVar "col") (ELit 1)); (ELit 13)])) (ECall "aes::mul" [(EIndex (EVar "col") (ELit 2)); (ELit
  9)]))]).

(** src/aes.rs:234-241 *)
Definition f_aes_AESDecrypt_shift_rows : fn := mkFn [("s", ByVal, TSeq (TSeq (TInt U8)))] (TSeq
  (TSeq (TInt U8)))
  (EArray [(EArray [(EIndex (EIndex (EVar "s") (ELit 0)) (ELit 0)); (EIndex (EIndex (EVar "s")
  (ELit 3)) (ELit 1)); (EIndex (EIndex (EVar "s") (ELit 2)) (ELit 2)); (EIndex (EIndex (EVar "s")
  (ELit 1)) (ELit 3))]); (EArray [(EIndex (EIndex (EVar "s") (ELit 1)) (ELit 0)); (EIndex (EIndex
  (EVar "s") (ELit 0)) (ELit 1)); (EIndex (EIndex (EVar "s") (ELit 3)) (ELit 2)); (EIndex (EIndex
  (EVar "s") (ELit 2)) (ELit 3))]); (EArray [(EIndex (EIndex (EVar "s") (ELit 2)) (ELit 0));
  (EIndex (EIndex (EVar "s") (ELit 1)) (ELit 1)); (EIndex (EIndex (EVar "s") (ELit 0)) (ELit 2));
  (EIndex (EIndex (EVar "s") (ELit 3)) (ELit 3))]); (EArray [(EIndex (EIndex (EVar "s") (ELit 3))
  (ELit 0)); (EIndex (EIndex (EVar "s") (ELit 2)) (ELit 1)); (EIndex (EIndex (EVar "s") (ELit 1))
  (ELit 2)); (EIndex (EIndex (EVar "s") (ELit 0)) (ELit 3))])]).

(** src/aes.rs:169-176 *)
Definition f_aes_AESDecrypt_add_round_key : fn := mkFn [("s", ByMut, TSeq (TSeq (TInt U8)));
  ("round_key", ByVal, TSeq (TInt U32))] (TOther)
  (EFor (PTup [PVar "col"; PVar "key"]) (EMethod (EMethod (EVar "s") "iter_mut" []) "zip" [(EVar
  "round_key")]) (ESeq (EOpAssign Xor (EIndex (EVar "col") (ELit 0)) (ECast U8 (EBin Shr (EVar
  "key") (ELit 24))))
  (ESeq (EOpAssign Xor (EIndex (EVar "col") (ELit 1)) (ECast U8 (EBin And (EBin Shr (EVar "key")
  (ELit 16)) (ELit 255))))
  (ESeq (EOpAssign Xor (EIndex (EVar "col") (ELit 2)) (ECast U8 (EBin And (EBin Shr (EVar "key")
  (ELit 8)) (ELit 255))))
  (ESeq (EOpAssign Xor (EIndex (EVar "col") (ELit 3)) (ECast U8 (EBin And (EVar "key") (ELit 255))))
  EUnit))))).

(** src/aes.rs:178-184 *)
Definition f_aes_AESDecrypt_sub_bytes : fn := mkFn [("s", ByMut, TSeq (TSeq (TInt U8)))] (TOther)
  (EFor (PVar "col") (EMethod (EVar "s") "iter_mut" []) (EFor (PVar "cell") (EMethod (EVar "col")
  "iter_mut" []) (ESeq (EAssign (EDeref (EVar "cell")) (TOther) (ECall
  "aes::AESDecrypt::lookup_sbox" [(EDeref (EVar "cell"))]))
  EUnit))).

(** src/aes.rs:186-190 *)
Definition f_aes_AESDecrypt_mix_columns : fn := mkFn [("s", ByMut, TSeq (TSeq (TInt U8)))] (TOther)
  (EFor (PVar "column") (EMethod (EVar "s") "iter_mut" []) (ESeq (EAssign (EDeref (EVar "column"))
  (TOther) (ECall "aes::AESDecrypt::mix_column" [(EDeref (EVar "column"))]))
  EUnit)).

(** src/aes.rs:244-251 *)
Definition f_aes_to_block : fn := mkFn [("b", ByVal, TSeq (TInt U8))] (TSeq (TSeq (TInt U8)))
  (EArray [(EArray [(EIndex (EVar "b") (ELit 0)); (EIndex (EVar "b") (ELit 1)); (EIndex (EVar "b")
  (ELit 2)); (EIndex (EVar "b") (ELit 3))]); (EArray [(EIndex (EVar "b") (ELit 4)); (EIndex (EVar
  "b") (ELit 5)); (EIndex (EVar "b") (ELit 6)); (EIndex (EVar "b") (ELit 7))]); (EArray [(EIndex
  (EVar "b") (ELit 8)); (EIndex (EVar "b") (ELit 9)); (EIndex (EVar "b") (ELit 10)); (EIndex (EVar
  "b") (ELit 11))]); (EArray [(EIndex (EVar "b") (ELit 12)); (EIndex (EVar "b") (ELit 13)); (EIndex
  (EVar "b") (ELit 14)); (EIndex (EVar "b") (ELit 15))])]).

(** src/aes.rs:253-258 *)
Definition f_aes_from_block : fn := mkFn [("s", ByVal, TSeq (TSeq (TInt U8)))] (TSeq (TInt U8))
  (EArray [(EIndex (EIndex (EVar "s") (ELit 0)) (ELit 0)); (EIndex (EIndex (EVar "s") (ELit 0))
  (ELit 1)); (EIndex (EIndex (EVar "s") (ELit 0)) (ELit 2)); (EIndex (EIndex (EVar "s") (ELit 0))
  (ELit 3)); (EIndex (EIndex (EVar "s") (ELit 1)) (ELit 0)); (EIndex (EIndex (EVar "s") (ELit 1))
  (ELit 1)); (EIndex (EIndex (EVar "s") (ELit 1)) (ELit 2)); (EIndex (EIndex (EVar "s") (ELit 1))
  (ELit 3)); (EIndex (EIndex (EVar "s") (ELit 2)) (ELit 0)); (EIndex (EIndex (EVar "s") (ELit 2))
  (ELit 1)); (EIndex (EIndex (EVar "s") (ELit 2)) (ELit 2)); (EIndex (EIndex (EVar "s") (ELit 2))
  (ELit 3)); (EIndex (EIndex (EVar "s") (ELit 3)) (ELit 0)); (EIndex (EIndex (EVar "s") (ELit 3))
  (ELit 1)); (EIndex (EIndex (EVar "s") (ELit 3)) (ELit 2)); (EIndex (EIndex (EVar "s") (ELit 3))
  (ELit 3))]).

(** src/aes.rs:272-274 *)
Definition f_aes_AESError_fmt : fn := mkFn [("self", ByVal, TOther); ("f", ByMut, TOther)] (TOther)
  (EWrite (EVar "f") "AESError: {}" [(EMethod (EVar "self") "description" [])]).

(** src/aes.rs:278-283 *)
Definition f_aes_AESError_description : fn := mkFn [("self", ByVal, TOther)] (TOther)
  (EMatch (EVar "self") [(PCon "aes::AESError::InvalidKeySize" [], (EStr
  "key size must be either of: 128, 192, or 256 bits")); (PCon "aes::AESError::NotInitialized" [],
  (EStr "AES instance must be initialized prior to use"))]).

(** src/aes.rs:319-324 *)
Definition f_aes_AES_new : fn := mkFn [] (TOther)
  (EStruct "aes::AES" [("round_count", TInt Usize, (ELit 0)); ("round_keys", TOther, (ECon "None"
  []))]).

(** src/aes.rs:327-346 *)
Definition f_aes_AES_init : fn := mkFn [("self", ByMut, TOther); ("key", ByVal, TSeq (TInt U8))]
  (TOther)
  (ESeq (EAssign (EField (EVar "self") "round_count") (TInt Usize) (EMatch (EMethod (EVar "key")
  "len" []) [(PLit 16, (ELit 10)); (PLit 24, (ELit 12)); (PLit 32, (ELit 14)); (PWild, (ESeq
  (EReturn (ECon "Err" [(ECon "aes::AESError::InvalidKeySize" [])]))
  EUnit))]))
  (ESeq (EAssign (EField (EVar "self") "round_keys") (TOther) (ECon "Some" [(ECall
  "aes::expand_key" [(EVar "key"); (EField (EVar "self") "round_count")])]))
  (ECon "Ok" [EUnit]))).

(** src/aes.rs:349-374 *)
Definition f_aes_AES_encrypt : fn := mkFn [("self", ByVal, TOther); ("b", ByVal, TSeq (TInt U8))]
  (TOther)
  (ELet (PVar "nr") (TOther) (EField (EVar "self") "round_count")
  (ELet (PVar "state") (TOther) (ECall "aes::to_block" [(EVar "b")])
  (ELet (PVar "round_keys") (TOther) (EMatch (ERef (EField (EVar "self") "round_keys")) [(PCon
  "Some" [PVar "keys"], (EVar "keys")); (PCon "None" [], (ESeq (EReturn (ECon "Err" [(ECon
  "aes::AESError::NotInitialized" [])]))
  EUnit))])
  (ESeq (ECall "aes::AESEncrypt::add_round_key" [(ERefMut (EVar "state")); (ERef (ESlice (EVar
  "round_keys") (Some (ELit 0)) (Some (ECst "aes::NB"))))])
  (ESeq (EFor (PVar "round") (ERange (ELit 1) (EVar "nr") false) (ESeq (ECall
  "aes::AESEncrypt::sub_bytes" [(ERefMut (EVar "state"))])
  (ESeq (EAssign (EVar "state") (TOther) (ECall "aes::AESEncrypt::shift_rows" [(ERef (EVar
  "state"))]))
  (ESeq (ECall "aes::AESEncrypt::mix_columns" [(ERefMut (EVar "state"))])
  (ESeq (ECall "aes::AESEncrypt::add_round_key" [(ERefMut (EVar "state")); (ERef (ESlice (EVar
  "round_keys") (Some (EBin Mul (EVar "round") (ECst "aes::NB"))) (Some (EBin Mul (EBin Add (EVar
  "round") (ELit 1)) (ECst "aes::NB")))))])
  EUnit)))))
  (ESeq (ECall "aes::AESEncrypt::sub_bytes" [(ERefMut (EVar "state"))])
  (ESeq (EAssign (EVar "state") (TOther) (ECall "aes::AESEncrypt::shift_rows" [(ERef (EVar
  "state"))]))
  (ESeq (ECall "aes::AESEncrypt::add_round_key" [(ERefMut (EVar "state")); (ERef (ESlice (EVar
  "round_keys") (Some (EBin Mul (EVar "nr") (ECst "aes::NB"))) None))])
  (ECon "Ok" [(ECall "aes::from_block" [(ERef (EVar "state"))])]))))))))).

(** src/aes.rs:377-402 *)
Definition f_aes_AES_decrypt : fn := mkFn [("self", ByVal, TOther); ("b", ByVal, TSeq (TInt U8))]
  (TOther)
  (ELet (PVar "nr") (TOther) (EField (EVar "self") "round_count")
  (ELet (PVar "state") (TOther) (ECall "aes::to_block" [(EVar "b")])
  (ELet (PVar "round_keys") (TOther) (EMatch (ERef (EField (EVar "self") "round_keys")) [(PCon
  "Some" [PVar "keys"], (EVar "keys")); (PCon "None" [], (ESeq (EReturn (ECon "Err" [(ECon
  "aes::AESError::NotInitialized" [])]))
  EUnit))])
  (ESeq (ECall "aes::AESDecrypt::add_round_key" [(ERefMut (EVar "state")); (ERef (ESlice (EVar
  "round_keys") (Some (EBin Mul (EVar "nr") (ECst "aes::NB"))) None))])
  (ESeq (EFor (PVar "round") (EMethod (ERange (ELit 1) (EVar "nr") false) "rev" []) (ESeq (EAssign
  (EVar "state") (TOther) (ECall "aes::AESDecrypt::shift_rows" [(ERef (EVar "state"))]))
  (ESeq (ECall "aes::AESDecrypt::sub_bytes" [(ERefMut (EVar "state"))])
  (ESeq (ECall "aes::AESDecrypt::add_round_key" [(ERefMut (EVar "state")); (ERef (ESlice (EVar
  "round_keys") (Some (EBin Mul (EVar "round") (ECst "aes::NB"))) (Some (EBin Mul (EBin Add (EVar
  "round") (ELit 1)) (ECst "aes::NB")))))])
  (ESeq (ECall "aes::AESDecrypt::mix_columns" [(ERefMut (EVar "state"))])
  EUnit)))))
  (ESeq (EAssign (EVar "state") (TOther) (ECall "aes::AESDecrypt::shift_rows" [(ERef (EVar
  "state"))]))
  (ESeq (ECall "aes::AESDecrypt::sub_bytes" [(ERefMut (EVar "state"))])
  (ESeq (ECall "aes::AESDecrypt::add_round_key" [(ERefMut (EVar "state")); (ERef (ESlice (EVar
  "round_keys") (Some (ELit 0)) (Some (ECst "aes::NB"))))])
  (ECon "Ok" [(ECall "aes::from_block" [(ERef (EVar "state"))])]))))))))).

(** src/aes.rs:406-408 *)
Definition f_aes_AES_default : fn := mkFn [] (TOther)
  (ECall "aes::AES::new" []).

(** src/pkcs7.rs:16-21 *)
Definition f_pkcs7_Pad_new : fn := mkFn [("block_size", ByVal, TInt Usize)] (TOther)
  (EStruct "pkcs7::Pad" [("block_size", TInt Usize, (EVar "block_size")); ("storage", TSeq (TInt
  U8), (ECapacity (TInt U8) (EBin Mul (ELit 2) (EVar "block_size"))))]).

(** src/pkcs7.rs:23-41 *)
Definition f_pkcs7_Pad_write : fn := mkFn [("self", ByMut, TOther); ("buf", ByVal, TSeq (TInt U8))]
  (TOther)
  (ESeq (EFor (PVar "elem") (EVar "buf") (ESeq (EMethod (EField (EVar "self") "storage") "push"
  [(EVar "elem")])
  EUnit))
  (ESeq (EIf (EBin Lt (EMethod (EField (EVar "self") "storage") "len" []) (EField (EVar "self")
  "block_size")) (ESeq (EReturn (ECon "None" []))
  EUnit) EUnit)
  (ELet (PVar "tail_len") (TOther) (EBin Rem (EMethod (EField (EVar "self") "storage") "len" [])
  (EField (EVar "self") "block_size"))
  (ELet (PVar "tail_pos") (TOther) (EBin Sub (EMethod (EField (EVar "self") "storage") "len" [])
  (EVar "tail_len"))
  (ELet (PVar "tail") (TOther) (EMethod (EField (EVar "self") "storage") "split_off" [(EVar
  "tail_pos")])
  (ELet (PVar "head") (TOther) (EMethod (EField (EVar "self") "storage") "clone" [])
  (ESeq (EMethod (EField (EVar "self") "storage") "clear" [])
  (ESeq (EMethod (EField (EVar "self") "storage") "append" [(ERefMut (EVar "tail"))])
  (ECon "Some" [(EVar "head")]))))))))).

(** src/pkcs7.rs:43-52 *)
Definition f_pkcs7_Pad_flush : fn := mkFn [("self", ByMut, TOther)] (TSeq (TInt U8))
  (ELet (PVar "len") (TOther) (EBin Sub (EField (EVar "self") "block_size") (EMethod (EField (EVar
  "self") "storage") "len" []))
  (ESeq (EWhile (EBin Lt (EMethod (EField (EVar "self") "storage") "len" []) (EField (EVar "self")
  "block_size")) (ESeq (EMethod (EField (EVar "self") "storage") "push" [(ECast U8 (EVar "len"))])
  EUnit))
  (ELet (PVar "result") (TOther) (EMethod (EField (EVar "self") "storage") "clone" [])
  (ESeq (EMethod (EField (EVar "self") "storage") "clear" [])
  (EVar "result"))))).

(** src/pkcs7.rs:66-68 *)
Definition f_pkcs7_UnpadError_fmt : fn := mkFn [("self", ByVal, TOther); ("f", ByMut, TOther)]
  (TOther)
  (EWrite (EVar "f") "UnpadError: {}" [(EMethod (EVar "self") "description" [])]).

(** src/pkcs7.rs:72-77 *)
Definition f_pkcs7_UnpadError_description : fn := mkFn [("self", ByVal, TOther)] (TOther)
  (EMatch (EVar "self") [(PCon "pkcs7::UnpadError::UnfinishedBlock" [], (EStr
  "data length must be a multiple of block size")); (PCon "pkcs7::UnpadError::InvalidPadding" [],
  (EStr "final block contains invalid padding"))]).

(** src/pkcs7.rs:86-91 *)
Definition f_pkcs7_Unpad_new : fn := mkFn [("block_size", ByVal, TInt Usize)] (TOther)
  (EStruct "pkcs7::Unpad" [("block_size", TInt Usize, (EVar "block_size")); ("storage", TSeq (TInt
  U8), (ECapacity (TInt U8) (EBin Mul (ELit 2) (EVar "block_size"))))]).

(** src/pkcs7.rs:93-120 *)
Definition f_pkcs7_Unpad_write : fn := mkFn [("self", ByMut, TOther); ("buf", ByVal, TSeq (TInt
  U8))] (TOther)
  (ESeq (EFor (PVar "elem") (EVar "buf") (ESeq (EMethod (EField (EVar "self") "storage") "push"
  [(EVar "elem")])
  EUnit))
  (ESeq (EIf (EBin Le (EMethod (EField (EVar "self") "storage") "len" []) (EField (EVar "self")
  "block_size")) (ESeq (EReturn (ECon "None" []))
  EUnit) EUnit)
  (ELet (PVar "tail_len") (TOther) (EBin Rem (EMethod (EField (EVar "self") "storage") "len" [])
  (EField (EVar "self") "block_size"))
  (ESeq (EIf (EBin Eq (EVar "tail_len") (ELit 0)) (ESeq (EAssign (EVar "tail_len") (TOther) (EField
  (EVar "self") "block_size"))
  EUnit) EUnit)
  (ELet (PVar "tail_pos") (TOther) (EBin Sub (EMethod (EField (EVar "self") "storage") "len" [])
  (EVar "tail_len"))
  (ELet (PVar "tail") (TOther) (EMethod (EField (EVar "self") "storage") "split_off" [(EVar
  "tail_pos")])
  (ELet (PVar "head") (TOther) (EMethod (EField (EVar "self") "storage") "clone" [])
  (ESeq (EMethod (EField (EVar "self") "storage") "clear" [])
  (ESeq (EMethod (EField (EVar "self") "storage") "append" [(ERefMut (EVar "tail"))])
  (ECon "Some" [(EVar "head")])))))))))).

(** src/pkcs7.rs:122-146 *)
Definition f_pkcs7_Unpad_flush : fn := mkFn [("self", ByMut, TOther)] (TOther)
  (ESeq (EIf (EBin Ne (EMethod (EField (EVar "self") "storage") "len" []) (EField (EVar "self")
  "block_size")) (ESeq (EReturn (ECon "Err" [(ECon "pkcs7::UnpadError::UnfinishedBlock" [])]))
  EUnit) EUnit)
  (ELet (PVar "len") (TOther) (EIndex (EField (EVar "self") "storage") (EBin Sub (EMethod (EField
  (EVar "self") "storage") "len" []) (ELit 1)))
  (ESeq (EIf (EBin Gt (EVar "len") (ECast U8 (EField (EVar "self") "block_size"))) (ESeq (EReturn
  (ECon "Err" [(ECon "pkcs7::UnpadError::InvalidPadding" [])]))
  EUnit) EUnit)
  (ELet (PVar "pad_off") (TInt Usize) (EBin Sub (EField (EVar "self") "block_size") (EFrom Usize
  (EVar "len")))
  (ELet (PVar "is_same") (TInt U8) (ELit 0)
  (ESeq (EFor (PVar "b") (EMethod (ESlice (EField (EVar "self") "storage") (Some (EVar "pad_off"))
  None) "iter" []) (ESeq (EOpAssign Or (EVar "is_same") (EBin Xor (EVar "len") (EVar "b")))
  EUnit))
  (ESeq (EIf (EBin Ne (EVar "is_same") (ELit 0)) (ESeq (EReturn (ECon "Err" [(ECon
  "pkcs7::UnpadError::InvalidPadding" [])]))
  EUnit) EUnit)
  (ELet (PVar "result") (TOther) (EMethod (ESlice (EField (EVar "self") "storage") None (Some (EVar
  "pad_off"))) "to_vec" [])
  (ESeq (EMethod (EField (EVar "self") "storage") "clear" [])
  (ECon "Ok" [(EVar "result")])))))))))).

(** src/aes_cbc.rs:48-54 *)
Definition f_aes_cbc_Cipher_new : fn := mkFn [("iv", ByVal, TSeq (TInt U8))] (TOther)
  (EStruct "aes_cbc::Cipher" [("aes", TOther, (ECall "aes::AES::new" [])); ("pad", TOther, (ECall
  "pkcs7::Pad::new" [(ECst "aes::BLOCK_SIZE")])); ("iv", TSeq (TInt U8), (EVar "iv"))]).

(** src/aes_cbc.rs:59-62 *)
Definition f_aes_cbc_Cipher_init : fn := mkFn [("self", ByMut, TOther); ("key", ByVal, TSeq (TInt
  U8))] (TOther)
  (ESeq (ETry (EMethod (EField (EVar "self") "aes") "init" [(EVar "key")]))
  (ECon "Ok" [EUnit])).

(** src/aes_cbc.rs:65-79 *)
Definition f_aes_cbc_Cipher_write : fn := mkFn [("self", ByMut, TOther); ("b", ByVal, TSeq (TInt
  U8))] (TOther)
  (ELet (PVar "blocks") (TOther) (EMatch (EMethod (EField (EVar "self") "pad") "write" [(EVar
  "b")]) [(PCon "None" [], (ESeq (EReturn (ECon "Ok" [(EVecNew (TInt U8))]))
  EUnit)); (PCon "Some" [PVar "block"], (EVar "block"))])
  (ELet (PVar "result") (TSeq (TInt U8)) (ECapacity (TInt U8) (EMethod (EVar "blocks") "len" []))
  (ESeq (EFor (PVar "block") (EMethod (EVar "blocks") "chunks" [(ECst "aes::BLOCK_SIZE")]) (ELet
  (PVar "ciphertext") (TOther) (ETry (EMethod (EVar "self") "encrypt_block" [(EVar "block")]))
  (ESeq (EMethod (EVar "result") "append" [(ERefMut (EVar "ciphertext"))])
  EUnit)))
  (ECon "Ok" [(EVar "result")])))).

(** src/aes_cbc.rs:82-85 *)
Definition f_aes_cbc_Cipher_flush : fn := mkFn [("self", ByMut, TOther)] (TOther)
  (ELet (PVar "block") (TOther) (EMethod (EField (EVar "self") "pad") "flush" [])
  (ECon "Ok" [(ETry (EMethod (EVar "self") "encrypt_block" [(ERef (EVar "block"))]))])).

(** src/aes_cbc.rs:87-102 *)
Definition f_aes_cbc_Cipher_encrypt_block : fn := mkFn [("self", ByMut, TOther); ("b", ByVal, TSeq
  (TInt U8))] (TOther)
  (ELet (PVar "block") (TOther) (ERepeat (ELit 0) (ECst "aes::BLOCK_SIZE"))
  (ESeq (EMethod (EVar "block") "copy_from_slice" [(ERef (EVar "b"))])
  (ESeq (EFor (PTup [PVar "elem"; PVar "iv_elem"]) (EMethod (EMethod (EVar "block") "iter_mut" [])
  "zip" [(EMethod (EField (EVar "self") "iv") "iter" [])]) (ESeq (EOpAssign Xor (EDeref (EVar
  "elem")) (EVar "iv_elem"))
  EUnit))
  (EMatch (EMethod (EField (EVar "self") "aes") "encrypt" [(ERef (EVar "block"))]) [(PCon "Ok"
  [PVar "new_iv"], (ESeq (EAssign (EField (EVar "self") "iv") (TSeq (TInt U8)) (EVar "new_iv"))
  (ECon "Ok" [(EMethod (EVar "new_iv") "to_vec" [])]))); (PCon "Err" [PVar "err"], (ECon "Err"
  [(EVar "err")]))])))).

(** src/aes_cbc.rs:150-152 *)
Definition f_aes_cbc_DecipherError_fmt : fn := mkFn [("self", ByVal, TOther); ("f", ByMut, TOther)]
  (TOther)
  (EWrite (EVar "f") "DecipherError: {}" [(EMethod (EVar "self") "description" [])]).

(** src/aes_cbc.rs:156-162 *)
Definition f_aes_cbc_DecipherError_description : fn := mkFn [("self", ByVal, TOther)] (TOther)
  (EMatch (EVar "self") [(PCon "aes_cbc::DecipherError::AES" [PVar "err"], (EMethod (EVar "err")
  "description" [])); (PCon "aes_cbc::DecipherError::PKCS7" [PVar "err"], (EMethod (EVar "err")
  "description" []))]).

(** src/aes_cbc.rs:169-176 *)
Definition f_aes_cbc_Decipher_new : fn := mkFn [("iv", ByVal, TSeq (TInt U8))] (TOther)
  (EStruct "aes_cbc::Decipher" [("aes", TOther, (ECall "aes::AES::new" [])); ("unpad", TOther,
  (ECall "pkcs7::Unpad::new" [(ECst "aes::BLOCK_SIZE")])); ("iv", TSeq (TInt U8), (EVar "iv"));
  ("buffer", TOther, (ECall "pkcs7::Pad::new" [(ECst "aes::BLOCK_SIZE")]))]).

(** src/aes_cbc.rs:181-184 *)
Definition f_aes_cbc_Decipher_init : fn := mkFn [("self", ByMut, TOther); ("key", ByVal, TSeq (TInt
  U8))] (TOther)
  (ESeq (ETry (EMethod (EField (EVar "self") "aes") "init" [(EVar "key")]))
  (ECon "Ok" [EUnit])).

(** src/aes_cbc.rs:187-214 *)
Definition f_aes_cbc_Decipher_write : fn := mkFn [("self", ByMut, TOther); ("b", ByVal, TSeq (TInt
  U8))] (TOther)
  (ELet (PVar "blocks") (TOther) (EMatch (EMethod (EField (EVar "self") "buffer") "write" [(EVar
  "b")]) [(PCon "Some" [PVar "blocks"], (EVar "blocks")); (PCon "None" [], (ESeq (EReturn (ECon
  "Ok" [(EVecNew (TInt U8))]))
  EUnit))])
  (ELet (PVar "padded_result") (TOther) (ECapacity (TInt U8) (EMethod (EVar "blocks") "len" []))
  (ESeq (EFor (PVar "ciphertext") (EMethod (EVar "blocks") "chunks" [(ECst "aes::BLOCK_SIZE")])
  (ELet (PVar "block") (TOther) (ERepeat (ELit 0) (ECst "aes::BLOCK_SIZE"))
  (ESeq (EMethod (EVar "block") "copy_from_slice" [(ERef (EVar "ciphertext"))])
  (ELet (PVar "cleartext") (TOther) (EMatch (EMethod (EField (EVar "self") "aes") "decrypt" [(ERef
  (EVar "block"))]) [(PCon "Err" [PVar "err"], (EReturn (ECon "Err" [(ECon
  "aes_cbc::DecipherError::AES" [(EVar "err")])]))); (PCon "Ok" [PVar "out"], (EVar "out"))])
  (ESeq (EFor (PTup [PVar "elem"; PVar "iv_elem"]) (EMethod (EMethod (EVar "cleartext") "iter_mut"
  []) "zip" [(EMethod (EField (EVar "self") "iv") "iter" [])]) (ESeq (EOpAssign Xor (EDeref (EVar
  "elem")) (EVar "iv_elem"))
  EUnit))
  (ESeq (EAssign (EField (EVar "self") "iv") (TSeq (TInt U8)) (EVar "block"))
  (ESeq (EMethod (EVar "padded_result") "append" [(ERefMut (EMethod (EVar "cleartext") "to_vec"
  []))])
  EUnit)))))))
  (ECon "Ok" [(EMethod (EMethod (EField (EVar "self") "unpad") "write" [(ERef (EVar
  "padded_result"))]) "unwrap_or_default" [])])))).

(** src/aes_cbc.rs:217-222 *)
Definition f_aes_cbc_Decipher_flush : fn := mkFn [("self", ByMut, TOther)] (TOther)
  (EMatch (EMethod (EField (EVar "self") "unpad") "flush" []) [(PCon "Err" [PVar "err"], (ECon
  "Err" [(ECon "aes_cbc::DecipherError::PKCS7" [(EVar "err")])])); (PCon "Ok" [PVar "block"], (ECon
  "Ok" [(EVar "block")]))]).

Definition constants : list (string * (ty * expr)) := [
  ("sha256::DIGEST_SIZE", c_sha256_DIGEST_SIZE);
  ("sha256::BLOCK_SIZE", c_sha256_BLOCK_SIZE);
  ("sha256::K", c_sha256_K);
  ("sha256::H", c_sha256_H);
  ("salsa20::BLOCK_SIZE", c_salsa20_BLOCK_SIZE);
  ("scrypt::SALSA_ROUNDS", c_scrypt_SALSA_ROUNDS);
  ("scrypt::PBKDF2_ROUNDS", c_scrypt_PBKDF2_ROUNDS);
  ("scrypt::BLOCK_SIZE", c_scrypt_BLOCK_SIZE);
  ("aes::BLOCK_SIZE", c_aes_BLOCK_SIZE);
  ("aes::NB", c_aes_NB);
  ("aes::SBOX", c_aes_SBOX);
  ("aes::INV_SBOX", c_aes_INV_SBOX);
  ("aes::RCON", c_aes_RCON)].

Definition functions : list (string * fn) := [
  ("sha256::ch", f_sha256_ch);
  ("sha256::maj", f_sha256_maj);
  ("sha256::rotr", f_sha256_rotr);
  ("sha256::bsig0", f_sha256_bsig0);
  ("sha256::bsig1", f_sha256_bsig1);
  ("sha256::ssig0", f_sha256_ssig0);
  ("sha256::ssig1", f_sha256_ssig1);
  ("sha256::fill_block", f_sha256_fill_block);
  ("sha256::write_u64_be", f_sha256_write_u64_be);
  ("sha256::SHA256::new", f_sha256_SHA256_new);
  ("sha256::SHA256::process_block", f_sha256_SHA256_process_block);
  ("sha256::SHA256::update", f_sha256_SHA256_update);
  ("sha256::SHA256::digest", f_sha256_SHA256_digest);
  ("sha256::SHA256::default", f_sha256_SHA256_default);
  ("hmac::HMac::new", f_hmac_HMac_new);
  ("hmac::HMac::update", f_hmac_HMac_update);
  ("hmac::HMac::digest", f_hmac_HMac_digest);
  ("pbkdf2::pbkdf2_sha256", f_pbkdf2_pbkdf2_sha256);
  ("salsa20::rotl", f_salsa20_rotl);
  ("salsa20::quarterround", f_salsa20_quarterround);
  ("salsa20::rowround", f_salsa20_rowround);
  ("salsa20::columnround", f_salsa20_columnround);
  ("salsa20::doubleround", f_salsa20_doubleround);
  ("salsa20::littleendian", f_salsa20_littleendian);
  ("salsa20::littleendian_inv", f_salsa20_littleendian_inv);
  ("salsa20::salsa20", f_salsa20_salsa20);
  ("scrypt::ScryptError::fmt", f_scrypt_ScryptError_fmt);
  ("scrypt::ScryptError::description", f_scrypt_ScryptError_description);
  ("scrypt::block_xor", f_scrypt_block_xor);
  ("scrypt::integerify", f_scrypt_integerify);
  ("scrypt::Scrypt::new", f_scrypt_Scrypt_new);
  ("scrypt::Scrypt::block_mix", f_scrypt_Scrypt_block_mix);
  ("scrypt::Scrypt::ro_mix", f_scrypt_Scrypt_ro_mix);
  ("scrypt::Scrypt::derive", f_scrypt_Scrypt_derive);
  ("aes::double", f_aes_double);
  ("aes::mul", f_aes_mul);
  ("aes::sub_word", f_aes_sub_word);
  ("aes::rot_word", f_aes_rot_word);
  ("aes::expand_key", f_aes_expand_key);
  ("aes::AESEncrypt::lookup_sbox", f_aes_AESEncrypt_lookup_sbox);
  ("aes::AESEncrypt::mix_column", f_aes_AESEncrypt_mix_column);
  ("aes::AESEncrypt::shift_rows", f_aes_AESEncrypt_shift_rows);
  ("aes::AESEncrypt::add_round_key", f_aes_AESEncrypt_add_round_key);
  ("aes::AESEncrypt::sub_bytes", f_aes_AESEncrypt_sub_bytes);
  ("aes::AESEncrypt::mix_columns", f_aes_AESEncrypt_mix_columns);
  ("aes::AESDecrypt::lookup_sbox", f_aes_AESDecrypt_lookup_sbox);
  ("aes::AESDecrypt::mix_column", f_aes_AESDecrypt_mix_column);
  ("aes::AESDecrypt::shift_rows", f_aes_AESDecrypt_shift_rows);
  ("aes::AESDecrypt::add_round_key", f_aes_AESDecrypt_add_round_key);
  ("aes::AESDecrypt::sub_bytes", f_aes_AESDecrypt_sub_bytes);
  ("aes::AESDecrypt::mix_columns", f_aes_AESDecrypt_mix_columns);
  ("aes::to_block", f_aes_to_block);
  ("aes::from_block", f_aes_from_block);
  ("aes::AESError::fmt", f_aes_AESError_fmt);
  ("aes::AESError::description", f_aes_AESError_description);
  ("aes::AES::new", f_aes_AES_new);
  ("aes::AES::init", f_aes_AES_init);
  ("aes::AES::encrypt", f_aes_AES_encrypt);
  ("aes::AES::decrypt", f_aes_AES_decrypt);
  ("aes::AES::default", f_aes_AES_default);
  ("pkcs7::Pad::new", f_pkcs7_Pad_new);
  ("pkcs7::Pad::write", f_pkcs7_Pad_write);
  ("pkcs7::Pad::flush", f_pkcs7_Pad_flush);
  ("pkcs7::UnpadError::fmt", f_pkcs7_UnpadError_fmt);
  ("pkcs7::UnpadError::description", f_pkcs7_UnpadError_description);
  ("pkcs7::Unpad::new", f_pkcs7_Unpad_new);
  ("pkcs7::Unpad::write", f_pkcs7_Unpad_write);
  ("pkcs7::Unpad::flush", f_pkcs7_Unpad_flush);
  ("aes_cbc::Cipher::new", f_aes_cbc_Cipher_new);
  ("aes_cbc::Cipher::init", f_aes_cbc_Cipher_init);
  ("aes_cbc::Cipher::write", f_aes_cbc_Cipher_write);
  ("aes_cbc::Cipher::flush", f_aes_cbc_Cipher_flush);
  ("aes_cbc::Cipher::encrypt_block", f_aes_cbc_Cipher_encrypt_block);
  ("aes_cbc::DecipherError::fmt", f_aes_cbc_DecipherError_fmt);
  ("aes_cbc::DecipherError::description", f_aes_cbc_DecipherError_description);
  ("aes_cbc::Decipher::new", f_aes_cbc_Decipher_new);
  ("aes_cbc::Decipher::init", f_aes_cbc_Decipher_init);
  ("aes_cbc::Decipher::write", f_aes_cbc_Decipher_write);
  ("aes_cbc::Decipher::flush", f_aes_cbc_Decipher_flush)].
