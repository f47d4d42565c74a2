(** Hexadecimal text (RFC 4648, section 8, in either case). *)
From Coq Require Import NArith List Ascii String.
Import ListNotations.
Local Open Scope N_scope.

(** The bytes of an ASCII string. *)
Definition text (s : string) : list N := map N_of_ascii (list_ascii_of_string s).

Definition lower : list N := text "0123456789abcdef".
Definition upper : list N := text "0123456789ABCDEF".

(** [c] is a digit of value [v]: it stands at place [v] of one of the alphabets. *)
Definition digit (c v : N) : Prop :=
  nth_error lower (N.to_nat v) = Some c \/ nth_error upper (N.to_nat v) = Some c.

(** [t] spells the octets [l]: two digits each, most significant first. *)
Inductive spells : list N -> list N -> Prop :=
| spells_nil : spells [] []
| spells_cons c1 c2 h l t bytes :
    digit c1 h -> digit c2 l -> spells t bytes ->
    spells (c1 :: c2 :: t) (16 * h + l :: bytes).

(** The lower-case encoding. *)
Definition encode (l : list N) : list N :=
  flat_map (fun b => [nth (N.to_nat (b / 16)) lower 0; nth (N.to_nat (b mod 16)) lower 0]) l.
