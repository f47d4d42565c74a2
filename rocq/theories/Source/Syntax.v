(** The Rust syntax that /repo/src uses.  Terms of these types are written by
    tools/gen_source.py from the text of /repo (Source/Tree.v); Source/Interp.v
    says what they mean.  Definitions only. *)
From Coq Require Import NArith List String.

(** Integer types.  [Lit] is the type of an integer literal that nothing has
    given a type yet. *)
Inductive ity : Type := U8 | U32 | U64 | Usize | Lit.

(** Types, as far as they are written in the text and matter for literals and
    allocation sizes: integers, arrays / slices / vectors, anything else. *)
Inductive ty : Type :=
| TInt (t : ity)
| TSeq (t : ty)
| TOther.

Inductive binop : Type :=
| Add | Sub | Mul | Div | Rem | And | Or | Xor | Shl | Shr
| Eq | Ne | Lt | Le | Gt | Ge | AndAlso | OrElse.

Inductive pat : Type :=
| PVar (x : string)
| PWild
| PLit (n : N)
| PTup (ps : list pat)
| PCon (c : string) (ps : list pat).

Inductive expr : Type :=
| EUnit
| ELit (n : N)
| EStr (s : string)
| EVar (x : string)
| ECst (c : string)                           (* a constant item *)
| EBin (op : binop) (a b : expr)
| ENot (a : expr)
| ECast (t : ity) (a : expr)                  (* a as t *)
| EFrom (t : ity) (a : expr)                  (* t::from(a) *)
| EMin (a b : expr)                           (* std::cmp::min(a, b) *)
| EField (a : expr) (f : string)
| EIndex (a i : expr)
| ESlice (a : expr) (lo hi : option expr)     (* a[lo..hi] *)
| ERef (a : expr)                             (* &a *)
| ERefMut (a : expr)                          (* &mut a *)
| EDeref (a : expr)                           (* *a *)
| EArray (es : list expr)
| ERepeat (a n : expr)                        (* [a; n] *)
| EVecRepeat (a n : expr)                     (* vec![a; n] *)
| EVecNew (t : ty)                            (* vec![] of elements of type t *)
| ECapacity (t : ty) (n : expr)               (* Vec::with_capacity(n), elements of type t *)
| EStruct (s : string) (fs : list (string * ty * expr))
| ECon (c : string) (es : list expr)          (* enum variants, Some, Ok, ... *)
| ECall (f : string) (es : list expr)
| EMethod (a : expr) (m : string) (es : list expr)
| EWrite (f : expr) (t : string) (es : list expr)  (* write!(f, t, es) *)
| EMap (a : expr) (p : pat) (b : expr)        (* a.map(|p| b) *)
| ERange (lo hi : expr) (incl : bool)         (* lo..hi, lo..=hi *)
| EIf (c a b : expr)
| EMatch (a : expr) (arms : list (pat * expr))
| EWhile (c b : expr)
| EFor (p : pat) (a b : expr)
| EReturn (a : expr)
| EContinue
| ETry (a : expr)                             (* a? *)
| EAssign (p : expr) (t : ty) (a : expr)      (* p = a, p declared of type t *)
| EOpAssign (op : binop) (p a : expr)
| ELet (p : pat) (t : ty) (a k : expr)        (* let p: t = a; k *)
| EDeclare (x : string) (k : expr)            (* let x; k *)
| ESeq (a b : expr).                          (* a; b *)

(** A parameter is passed by value / shared reference, or by mutable reference. *)
Inductive mode : Type := ByVal | ByMut.

Record fn : Type := mkFn {
  params : list (string * mode * ty);
  ret_ty : ty;
  body : expr
}.
