(** Model of /repo/src/pkcs7.rs. *)
From Coq Require Import NArith List String.
From Verif Require Import Rust.
Import ListNotations.
Local Open Scope N_scope.

(** src/pkcs7.rs:10-13 *)
Record Pad : Type := mkPad { pad_block_size : N; pad_storage : list N }.

(** src/pkcs7.rs:16-21 *)
Definition pad_new (T : target) (block_size : N) : res Pad :=
  let* c := umul T 2 block_size in
  let* _ := alloc T 1 c in
  Ret (mkPad block_size []).

(** src/pkcs7.rs:23-41.  Pushing the elements one by one is list append. *)
Definition pad_write (T : target) (p : Pad) (buf : list N) : res (option (list N) * Pad) :=
  let bs := pad_block_size p in
  let storage := pad_storage p ++ buf in
  if len storage <? bs then Ret (None, mkPad bs storage)
  else
    let* tail_len := urem (len storage) bs in
    let* tail_pos := usub T (len storage) tail_len in
    let* (storage, tail) := split_off storage tail_pos in
    let head := storage in
    let storage := [] ++ tail in
    Ret (Some head, mkPad bs storage).

(** src/pkcs7.rs:43-52.  The loop gets fuel for one iteration per missing byte
    and one spare. *)
Definition pad_flush (T : target) (p : Pad) : res (list N * Pad) :=
  let bs := pad_block_size p in
  let* n := usub T bs (len (pad_storage p)) in
  let* storage :=
    while_loop (S (N.to_nat bs)) (fun st => len st <? bs)
      (fun st => Ret (st ++ [as_u8 n])) (pad_storage p) in
  let result := storage in
  Ret (result, mkPad bs []).

(** src/pkcs7.rs:57-63 *)
Inductive UnpadError : Type := UnfinishedBlock | InvalidPadding.

(** src/pkcs7.rs:71-78 *)
Definition unpad_error_description (e : UnpadError) : string :=
  match e with
  | UnfinishedBlock => "data length must be a multiple of block size"
  | InvalidPadding => "final block contains invalid padding"
  end.

(** src/pkcs7.rs:65-69 *)
Definition unpad_error_display (e : UnpadError) : string :=
  "UnpadError: " ++ unpad_error_description e.

(** src/pkcs7.rs:80-83 *)
Record Unpad : Type := mkUnpad { unpad_block_size : N; unpad_storage : list N }.

(** src/pkcs7.rs:86-91 *)
Definition unpad_new (T : target) (block_size : N) : res Unpad :=
  let* c := umul T 2 block_size in
  let* _ := alloc T 1 c in
  Ret (mkUnpad block_size []).

(** src/pkcs7.rs:93-120 *)
Definition unpad_write (T : target) (p : Unpad) (buf : list N)
  : res (option (list N) * Unpad) :=
  let bs := unpad_block_size p in
  let storage := unpad_storage p ++ buf in
  if len storage <=? bs then Ret (None, mkUnpad bs storage)
  else
    let* tail_len := urem (len storage) bs in
    let tail_len := if tail_len =? 0 then bs else tail_len in
    let* tail_pos := usub T (len storage) tail_len in
    let* (storage, tail) := split_off storage tail_pos in
    let head := storage in
    let storage := [] ++ tail in
    Ret (Some head, mkUnpad bs storage).

(** src/pkcs7.rs:122-146 *)
Definition unpad_flush (T : target) (p : Unpad)
  : res (result (list N) UnpadError * Unpad) :=
  let bs := unpad_block_size p in
  let storage := unpad_storage p in
  if negb (len storage =? bs) then Ret (Err UnfinishedBlock, p)
  else
    let* i := usub T (len storage) 1 in
    let* n := idx storage i in
    if as_u8 bs <? n then Ret (Err InvalidPadding, p)
    else
      let* pad_off := usub T bs n in
      let* tail := slice_from storage pad_off in
      let is_same := fold_left (fun acc b => N.lor acc (N.lxor n b)) tail 0 in
      if negb (is_same =? 0) then Ret (Err InvalidPadding, p)
      else
        let* result := slice_to storage pad_off in
        Ret (Ok result, mkUnpad bs []).
