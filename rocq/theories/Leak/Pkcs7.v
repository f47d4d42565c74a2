(** The text of Model/Pkcs7.v with the recording operations of Ops.v: [if] is [if*],
    and traversals written with pure list functions in the model record their
    length.  Constants, records and functions that neither branch nor index
    (word operations) are the model's own. *)
From Coq Require Import NArith List Bool.
From Verif Require Import Rust.
From Verif.Model Require Import Pkcs7.
From Verif.Leak Require Import Ops.
Import ListNotations.
Local Open Scope N_scope.

(** src/pkcs7.rs:16-21 *)
Definition pad_new (T : target) (block_size : N) : res Pad :=
  let* c := umul T 2 block_size in
  let* _ := alloc T 1 c in
  Ret (mkPad block_size []).

(** src/pkcs7.rs:23-41.  Pushing the elements one by one is list append. *)
Definition pad_write (T : target) (p : Pad) (buf : list N) : res (option (list N) * Pad) :=
  let bs := pad_block_size p in
  let* storage := run (len buf) (pad_storage p ++ buf) in
  if* len storage <? bs then Ret (None, mkPad bs storage)
  else
    let* tail_len := urem (len storage) bs in
    let* tail_pos := usub T (len storage) tail_len in
    let* (storage, tail) := split_off storage tail_pos in
    let head := storage in
    let* storage := run (len tail) ([] ++ tail) in
    Ret (Some head, mkPad bs storage).

(** src/pkcs7.rs:43-52.  The loop gets fuel for one iteration per missing byte
    and one spare. *)
Definition pad_flush (T : target) (p : Pad) : res (list N * Pad) :=
  let bs := pad_block_size p in
  let* n := usub T bs (len (pad_storage p)) in
  let* storage :=
    while_loop (S (N.to_nat bs)) (fun st => len st <? bs)
      (fun st => Ret (st ++ [as_u8 n])) (pad_storage p) in
  let result := storage in
  Ret (result, mkPad bs []).

(** src/pkcs7.rs:86-91 *)
Definition unpad_new (T : target) (block_size : N) : res Unpad :=
  let* c := umul T 2 block_size in
  let* _ := alloc T 1 c in
  Ret (mkUnpad block_size []).

(** src/pkcs7.rs:93-120 *)
Definition unpad_write (T : target) (p : Unpad) (buf : list N)
  : res (option (list N) * Unpad) :=
  let bs := unpad_block_size p in
  let* storage := run (len buf) (unpad_storage p ++ buf) in
  if* len storage <=? bs then Ret (None, mkUnpad bs storage)
  else
    let* tail_len := urem (len storage) bs in
    let* tail_len := (if* tail_len =? 0 then Ret bs else Ret tail_len) in
    let* tail_pos := usub T (len storage) tail_len in
    let* (storage, tail) := split_off storage tail_pos in
    let head := storage in
    let* storage := run (len tail) ([] ++ tail) in
    Ret (Some head, mkUnpad bs storage).

(** src/pkcs7.rs:122-146 *)
Definition unpad_flush (T : target) (p : Unpad)
  : res (result (list N) UnpadError * Unpad) :=
  let bs := unpad_block_size p in
  let storage := unpad_storage p in
  if* negb (len storage =? bs) then Ret (Err UnfinishedBlock, p)
  else
    let* i := usub T (len storage) 1 in
    let* n := idx storage i in
    if* as_u8 bs <? n then Ret (Err InvalidPadding, p)
    else
      let* pad_off := usub T bs n in
      let* tail := slice_from storage pad_off in
      let* is_same := run (len tail) (fold_left (fun acc b => N.lor acc (N.lxor n b)) tail 0) in
      if* negb (is_same =? 0) then Ret (Err InvalidPadding, p)
      else
        let* result := slice_to storage pad_off in
        run (len result) (Ok result, mkUnpad bs []).
