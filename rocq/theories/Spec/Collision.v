(** The structure of SHA-256 seen from outside: which compressions a hash consists
    of, and what can be computed from a digest alone.  Independent of the model. *)
From Coq Require Import NArith List Arith.
From Verif.Spec Require Import Octets Sha256 Hmac.
Import ListNotations.
Local Open Scope N_scope.

(** The inputs (chaining value, sixteen words) of the compressions that absorb the
    given blocks, in order. *)
Fixpoint inputs (h : list N) (Ms : list (list N)) {struct Ms} : list (list N * list N) :=
  match Ms with
  | [] => []
  | M :: Ms' => (h, M) :: inputs (compress h M) Ms'
  end.

(** The inputs of all compressions in the hash of [m]. *)
Definition compressions (m : list N) : list (list N * list N) :=
  inputs H0 (map words_of_bits (blocks 512 (pad (bits_of_octets m)))).

(** Two different inputs of the compression function, the first one used in hashing
    [m] and the second in hashing [m'], with the same output.  (That some colliding
    inputs exist is trivial by counting; these ones can be read off the two hash
    computations.) *)
Definition collision_within (m m' : list N) : Prop :=
  exists p p', In p (compressions m) /\ In p' (compressions m') /\ p <> p' /\
    compress (fst p) (snd p) = compress (fst p') (snd p').

(** What SHA-256 appends to a message of [n] octets. *)
Definition glue (n : nat) : list N :=
  [128] ++ repeat 0 ((119 - n mod 64) mod 64) ++ be_octets 8 (8 * N.of_nat n).

(** From a digest [d] of an unknown message of [n] octets: go on hashing [suffix]
    behind the padded message. *)
Definition continue (d : list N) (n : nat) (suffix : list N) : list N :=
  let n' := (n + length (glue n) + length suffix)%nat in
  flat_map (be_octets 4)
    (fold_left (fun h b => compress h (map be_num (blocks 4 b)))
       (blocks 64 (suffix ++ glue n')) (map be_num (blocks 4 d))).

(** The rounds without the final addition, as a map on chaining values. *)
Definition mix (M h : list N) : list N :=
  match h with
  | [a; b; c; d; e; f; g; k] =>
      let '(a', b', c', d', e', f', g', k') :=
        fold_left round (combine Kt (schedule 48 M)) (a, b, c, d, e, f, g, k) in
      [a'; b'; c'; d'; e'; f'; g'; k']
  | _ => []
  end.

(** A chaining value: eight 32-bit words. *)
Definition chaining (h : list N) : Prop := length h = 8%nat /\ Forall (fun x => x < 2 ^ 32) h.
