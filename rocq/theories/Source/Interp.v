(** What the syntax trees of Source/Syntax.v mean: an interpreter for the Rust
    subset /repo/src is written in, over the outcomes and primitives of Rust.v.
    It knows nothing of the model: no file of Model is imported.

    Shared references are values.  A mutable reference is a place: a local
    variable and a way into its value.  Calls copy the referents of mutable
    references in and out, which Rust's borrow rules make unobservable.
    Integers carry their type; what cannot happen in a typed program is
    [Diverge], and so is running out of fuel. *)
From Coq Require Import NArith List String Ascii Bool.
From Verif Require Import Rust.
From Verif.Source Require Import Syntax.
Import ListNotations.
Local Open Scope string_scope.
Local Open Scope N_scope.

(** * Values *)

Inductive step : Type :=
| SField (f : string)
| SIndex (i : N)
| SSlice (lo hi : N).
Record path : Type := mkPath { root : string; steps : list step }.

Inductive val : Type :=
| VUnit
| VBool (b : bool)
| VInt (t : ity) (n : N)
| VStr (s : string)
| VNums (t : ity) (l : list N)        (* an array, slice or vector of integers *)
| VSeq (l : list val)                 (* any other *)
| VTup (l : list val)
| VStruct (s : string) (fs : list (string * val))
| VCon (c : string) (l : list val)
| VRef (p : path).

Definition env : Type := list (string * val).

Fixpoint lookup {A : Type} (x : string) (l : list (string * A)) : option A :=
  match l with
  | [] => None
  | (y, v) :: l' => if String.eqb x y then Some v else lookup x l'
  end.
Fixpoint assoc_set {A : Type} (x : string) (v : A) (l : list (string * A))
  : list (string * A) :=
  match l with
  | [] => []
  | (y, w) :: l' => if String.eqb x y then (y, v) :: l' else (y, w) :: assoc_set x v l'
  end.

(** The list functions that only ever run on lists written in the tree (fields,
    arguments, variables); separate names keep them apart from the program's
    own lists. *)
Definition each {A B : Type} (f : A -> B) : list A -> list B :=
  fix go (l : list A) := match l with [] => [] | x :: l' => f x :: go l' end.
Fixpoint each_res {A B : Type} (f : A -> res B) (l : list A) : res (list B) :=
  match l with
  | [] => Ret []
  | x :: l' => let* y := f x in let* ys := each_res f l' in Ret (y :: ys)
  end.
Fixpoint join_lists {A : Type} (a b : list A) : list A :=
  match a with [] => b | x :: a' => x :: join_lists a' b end.
Fixpoint pair_up {A B : Type} (a : list A) (b : list B) : list (A * B) :=
  match a, b with x :: a', y :: b' => (x, y) :: pair_up a' b' | _, _ => [] end.
(** [r] without as many elements as [new] has. *)
Fixpoint drop {A B : Type} (new : list A) (r : list B) : list B :=
  match new, r with _ :: new', _ :: r' => drop new' r' | _, _ => r end.

Definition find {A : Type} (x : string) (l : list (string * A)) : res A :=
  match lookup x l with Some v => Ret v | None => Diverge end.

(** * Integers *)

Definition ity_eqb (a b : ity) : bool :=
  match a, b with
  | U8, U8 | U32, U32 | U64, U64 | Usize, Usize | Lit, Lit => true
  | _, _ => false
  end.
(** The common type of two operands: a literal takes the type of the other. *)
Definition join (a b : ity) : option ity :=
  match a, b with
  | Lit, t => Some t
  | t, Lit => Some t
  | _, _ => if ity_eqb a b then Some a else None
  end.

Definition bits (T : target) (t : ity) : N :=
  match t with U8 => 8 | U32 => 32 | U64 => 64 | Usize => usize_bits T | Lit => 0 end.

(** [a < b], for numbers that are known when a tree is run. *)
Definition below (a b : N) : bool :=
  match a ?= b with Datatypes.Lt => true | _ => false end.

(** An arithmetic result of type [t]: in range, or panic / wrap. *)
Definition fit (T : target) (t : ity) (x : N) : res N :=
  if x <? 2 ^ bits T t then Ret x
  else if overflow_checks T then Panic
  else Ret (x mod 2 ^ bits T t).

Definition add (T : target) (t : ity) (a b : N) : res N :=
  match t with Usize => uadd T a b | Lit => Diverge | _ => fit T t (a + b) end.
Definition mul (T : target) (t : ity) (a b : N) : res N :=
  match t with Usize => umul T a b | Lit => Diverge | _ => fit T t (a * b) end.
Definition sub (T : target) (t : ity) (a b : N) : res N :=
  match t with
  | Usize => usub T a b
  | Lit => Diverge
  | _ => if b <=? a then Ret (a - b)
         else if overflow_checks T then Panic
         else Ret (a + 2 ^ bits T t - b)
  end.

Definition shl (T : target) (t : ity) (a s : N) : res N :=
  match t with
  | U8 => Ret (shl8 a s)
  | U32 => Ret (shl32 a s)
  | U64 => Ret (shl64 a s)
  | Usize => Ret (N.shiftl a s mod usize_mod T)
  | Lit => Diverge
  end.
(** A shift by the width of the type or more panics, or wraps the amount. *)
Definition amount (T : target) (t : ity) (s : N) : res N :=
  if below s (bits T t) then Ret s
  else if overflow_checks T then Panic
  else urem s (bits T t).

Definition arith (T : target) (op : binop) (t : ity) (a b : N) : res val :=
  match op with
  | Add => let* n := add T t a b in Ret (VInt t n)
  | Sub => let* n := sub T t a b in Ret (VInt t n)
  | Mul => let* n := mul T t a b in Ret (VInt t n)
  | Div => let* n := udiv a b in Ret (VInt t n)
  | Rem => let* n := urem a b in Ret (VInt t n)
  | And => Ret (VInt t (N.land a b))
  | Or => Ret (VInt t (N.lor a b))
  | Xor => Ret (VInt t (N.lxor a b))
  | Eq => Ret (VBool (a =? b))
  | Ne => Ret (VBool (negb (a =? b)))
  | Lt => Ret (VBool (a <? b))
  | Le => Ret (VBool (a <=? b))
  | Gt => Ret (VBool (b <? a))
  | Ge => Ret (VBool (b <=? a))
  | _ => Diverge
  end.

Definition bin (T : target) (op : binop) (v w : val) : res val :=
  match v, w with
  | VInt t a, VInt u b =>
      match op with
      | Shl => let* s := amount T t b in let* n := shl T t a s in Ret (VInt t n)
      | Shr => let* s := amount T t b in Ret (VInt t (shr a s))
      | _ => match join t u with Some j => arith T op j a b | None => Diverge end
      end
  | _, _ => Diverge
  end.

Definition not_ (T : target) (v : val) : res val :=
  match v with
  | VBool b => Ret (VBool (negb b))
  | VInt U32 a => Ret (VInt U32 (not32 a))
  | VInt Lit _ => Diverge
  | VInt t a => Ret (VInt t (N.lxor a (2 ^ bits T t - 1)))
  | _ => Diverge
  end.

(** [a as t]. *)
Definition cast (T : target) (t : ity) (v : val) : res val :=
  match v with
  | VInt _ a =>
      match t with
      | U8 => Ret (VInt U8 (as_u8 a))
      | U32 => Ret (VInt U32 (a mod 2 ^ 32))
      | U64 => Ret (VInt U64 (as_u64 a))
      | Usize => Ret (VInt Usize (as_usize T a))
      | Lit => Diverge
      end
  | _ => Diverge
  end.
(** [t::from(a)]: only from a type that always fits. *)
Definition from (t : ity) (v : val) : res val :=
  match t, v with
  | U32, VInt U8 a => Ret (VInt U32 a)
  | U64, VInt U8 a => Ret (VInt U64 a)
  | U64, VInt U32 a => Ret (VInt U64 a)
  | Usize, VInt U8 a => Ret (VInt Usize a)
  | _, _ => Diverge
  end.
Definition wrapping_add (T : target) (v w : val) : res val :=
  match v, w with
  | VInt U32 a, VInt U32 b => Ret (VInt U32 (wrapping_add32 a b))
  | VInt t a, VInt u b =>
      match join t u with
      | Some j => Ret (VInt j ((a + b) mod 2 ^ bits T j))
      | None => Diverge
      end
  | _, _ => Diverge
  end.
Definition min_ (v w : val) : res val :=
  match v, w with
  | VInt t a, VInt u b =>
      match join t u with Some j => Ret (VInt j (N.min a b)) | None => Diverge end
  | _, _ => Diverge
  end.

(** * Sequences *)

Definition num (t : ity) (v : val) : res N :=
  match v with
  | VInt u n => match join t u with
                | Some j => if ity_eqb j t then Ret n else Diverge
                | None => Diverge
                end
  | _ => Diverge
  end.

(** A value where one of the type [t] is expected: literals take their type. *)
Definition coerce (t : ty) (v : val) : res val :=
  match t, v with
  | TInt t, VInt _ _ => let* n := num t v in Ret (VInt t n)
  | TSeq (TInt t), VNums u l =>
      match join t u with
      | Some j => if ity_eqb j t then Ret (VNums t l) else Diverge
      | None => Diverge
      end
  | TSeq (TInt t), VSeq l => let* l' := map_res (num t) l in Ret (VNums t l')
  | _, _ => Ret v
  end.

Definition array (l : list val) : res val :=
  match l with
  | VInt t _ :: _ => let* l' := each_res (num t) l in Ret (VNums t l')
  | _ => Ret (VSeq l)
  end.
Definition repeat_val (v : val) (n : N) : val :=
  match v with
  | VInt t a => VNums t (repeat a (N.to_nat n))
  | _ => VSeq (repeat v (N.to_nat n))
  end.

(** The elements, in order. *)
Definition items (v : val) : res (list val) :=
  match v with
  | VNums t l => Ret (map (VInt t) l)
  | VSeq l => Ret l
  | _ => Diverge
  end.

Definition size (v : val) : res N :=
  match v with
  | VNums _ l => Ret (len l)
  | VSeq l => Ret (len l)
  | _ => Diverge
  end.

(** [lo], [lo + 1], ...: [n] numbers. *)
Fixpoint count (n : nat) (lo : N) : list N :=
  match n with O => [] | S n' => lo :: count n' (N.succ lo) end.

Definition range (lo hi : val) (incl : bool) : res val :=
  match lo, hi with
  | VInt t a, VInt u b =>
      match join t u with
      | Some j =>
          let b' := if incl then b + 1 else b in
          Ret (VNums (if ity_eqb j Lit then Usize else j) (count (N.to_nat (b' - a)) a))
      | None => Diverge
      end
  | _, _ => Diverge
  end.

Definition index_of (v : val) : res N :=
  match v with VInt Usize n | VInt Lit n => Ret n | _ => Diverge end.

(** * Places *)

Definition get_step (v : val) (s : step) : res val :=
  match v, s with
  | VStruct _ fs, SField f => find f fs
  | VNums t l, SIndex i => let* n := idx l i in Ret (VInt t n)
  | VSeq l, SIndex i => idx l i
  | VNums t l, SSlice a b => let* l' := slice l a b in Ret (VNums t l')
  | VSeq l, SSlice a b => let* l' := slice l a b in Ret (VSeq l')
  | _, _ => Diverge
  end.
Fixpoint get_steps (v : val) (p : list step) : res val :=
  match p with
  | [] => Ret v
  | s :: p' => let* w := get_step v s in get_steps w p'
  end.

(** Replacing what the path leads to.  A slice is only ever written after it
    has been read, so its bounds are not checked a second time. *)
Fixpoint put_steps (v : val) (p : list step) (x : val) : res val :=
  match p with
  | [] => Ret x
  | s :: p' =>
      match v, s with
      | VStruct n fs, SField f =>
          let* w := find f fs in
          let* w' := put_steps w p' x in
          Ret (VStruct n (assoc_set f w' fs))
      | VNums t l, SIndex i =>
          match p', x with
          | [], VInt u n =>
              match join t u with
              | Some j => let* l' := upd l i n in Ret (VNums j l')
              | None => Diverge
              end
          | _, _ => Diverge
          end
      | VSeq l, SIndex i =>
          let* w := idx l i in
          let* w' := put_steps w p' x in
          let* l' := upd l i w' in
          Ret (VSeq l')
      | VNums t l, SSlice a b =>
          match p', x with
          | [], VNums u l' =>
              match join t u with
              | Some j => Ret (VNums j (firstn (N.to_nat a) l ++ l' ++ skipn (N.to_nat b) l)%list)
              | None => Diverge
              end
          | _, _ => Diverge
          end
      | _, _ => Diverge
      end
  end.

Definition get (r : env) (p : path) : res val :=
  let* v := find (root p) r in get_steps v (steps p).
Definition put (r : env) (p : path) (x : val) : res env :=
  let* v := find (root p) r in
  let* v' := put_steps v (steps p) x in
  Ret (assoc_set (root p) v' r).

Definition extend (p : path) (s : step) : path := mkPath (root p) (join_lists (steps p) [s]).

(** * Running *)

(** How an expression ends: with a value, or by leaving the function or the
    loop body. *)
Inductive out : Type := Val (v : val) | Return (v : val) | Continue.

Definition M : Type := env -> res (out * env).

Definition ret (v : val) : M := fun r => Ret (Val v, r).
Definition bindm (m : M) (k : val -> M) : M := fun r =>
  let* (o, r') := m r in
  match o with Val v => k v r' | _ => Ret (o, r') end.
Definition lift (m : res val) : M := fun r => let* v := m in Ret (Val v, r).
Definition set_place (p : path) (x : val) : M := fun r =>
  let* r' := put r p x in Ret (Val VUnit, r').

(** What a reference refers to; other values are themselves. *)
Definition deref (v : val) : M := fun r =>
  match v with
  | VRef p => let* x := get r p in Ret (Val x, r)
  | _ => Ret (Val v, r)
  end.

(** One step into a place or a value; as a place, or its value. *)
Definition into (place : bool) (v : val) (s : step) : M := fun r =>
  match v with
  | VRef p => if place then Ret (Val (VRef (extend p s)), r)
              else let* x := get r (extend p s) in Ret (Val x, r)
  | _ => let* x := get_step v s in Ret (Val x, r)
  end.

(** Evaluating from left to right. *)
Fixpoint all (ms : list M) (k : list val -> M) : M :=
  match ms with
  | [] => k []
  | m :: ms' => bindm m (fun v => all ms' (fun vs => k (v :: vs)))
  end.

(** Matching a value; the variables bound, innermost first. *)
Fixpoint matches (p : pat) (v : val) : option env :=
  match p, v with
  | PVar x, _ => Some [(x, v)]
  | PWild, _ => Some []
  | PLit n, VInt _ m => if n =? m then Some [] else None
  | PTup ps, VTup vs =>
      (fix go (ps : list pat) (vs : list val) : option env :=
         match ps, vs with
         | [], [] => Some []
         | p :: ps', v :: vs' =>
             match matches p v, go ps' vs' with
             | Some a, Some b => Some (join_lists a b)
             | _, _ => None
             end
         | _, _ => None
         end) ps vs
  | PCon c ps, VCon d vs =>
      if String.eqb c d then
        (fix go (ps : list pat) (vs : list val) : option env :=
           match ps, vs with
           | [], [] => Some []
           | p :: ps', v :: vs' =>
               match matches p v, go ps' vs' with
               | Some a, Some b => Some (join_lists a b)
               | _, _ => None
               end
           | _, _ => None
           end) ps vs
      else None
  | _, _ => None
  end.

(** Running [m] with more variables, which go out of scope afterwards. *)
Definition scoped (new : env) (m : M) : M := fun r =>
  let* (o, r') := m (join_lists new r) in Ret (o, drop new r').

Definition binding (p : pat) (v : val) (m : M) : M := fun r =>
  match matches p v with Some new => scoped new m r | None => Diverge end.

Fixpoint first_arm (v : val) (arms : list (pat * M)) : M := fun r =>
  match arms with
  | [] => Diverge
  | (p, m) :: arms' =>
      match matches p v with
      | Some new => scoped new m r
      | None => first_arm v arms' r
      end
  end.

(** One run of a loop body. *)
Definition once (m : M) : M := fun r =>
  let* (o, r') := m r in
  match o with Return v => Ret (Return v, r') | _ => Ret (Val VUnit, r') end.

Fixpoint for_items (body : val -> M) (l : list val) : M :=
  match l with
  | [] => ret VUnit
  | x :: l' => bindm (once (body x)) (fun _ => for_items body l')
  end.

Fixpoint while_m (fuel : nat) (cond body : M) : M :=
  bindm cond (fun c r =>
    match c with
    | VBool true =>
        match fuel with
        | O => Diverge
        | S f => bindm (once body) (fun _ => while_m f cond body) r
        end
    | VBool false => Ret (Val VUnit, r)
    | _ => Diverge
    end).

Fixpoint map_items (f : val -> M) (l : list val) : M :=
  match l with
  | [] => ret (VSeq [])
  | x :: l' => bindm (f x) (fun y => bindm (map_items f l') (fun ys =>
      match ys with VSeq ys => ret (VSeq (y :: ys)) | _ => fun _ => Diverge end))
  end.

(** ** Calls *)

Definition callee : Type := string -> list val -> res (val * list (option val)).

Definition copy_in (r : env) (vs : list val) : res (list val) :=
  each_res (fun v => match v with VRef p => get r p | _ => Ret v end) vs.
Fixpoint copy_out (r : env) (vs : list val) (ws : list (option val)) : res env :=
  match vs, ws with
  | [], [] => Ret r
  | VRef p :: vs', Some w :: ws' => let* r' := put r p w in copy_out r' vs' ws'
  | _ :: vs', _ :: ws' => copy_out r vs' ws'
  | _, _ => Diverge
  end.
Definition do_call (call : callee) (f : string) (vs : list val) : M := fun r =>
  let* xs := copy_in r vs in
  let* (y, ws) := call f xs in
  let* r' := copy_out r vs ws in
  Ret (Val y, r').

(** "a::b" for "a::b::c". *)
Fixpoint parent (s : string) : option string :=
  match s with
  | EmptyString => None
  | String c s' =>
      match parent s' with
      | Some p => Some (String c p)
      | None => if String.prefix "::" s then Some "" else None
      end
  end.

(** The type whose methods apply to a value, if it is one of /repo's. *)
Definition type_name (v : val) : option string :=
  match v with
  | VStruct s _ => Some s
  | VCon c _ => parent c
  | _ => None
  end.

(** Methods of [std] on integers, arrays, slices, vectors and iterators: [recv]
    is the receiver as a place (if it is one), [v] its value. *)
Definition builtin (T : target) (m : string) (recv v : val) (args : list val) : M :=
  match m, args with
  | "len", [] => lift (let* n := size v in Ret (VInt Usize n))
  | "clone", [] | "to_vec", [] | "iter", [] | "into_iter", [] | "collect", [] => ret v
  | "wrapping_add", [w] => lift (wrapping_add T v w)
  | "unwrap_or_default", [] =>
      match v with
      | VCon "Some" [x] => ret x
      | VCon "None" [] => ret (VNums U8 [])      (* only used for vectors of bytes *)
      | _ => fun _ => Diverge
      end
  | "iter_mut", [] =>
      match recv with
      | VRef p => lift (let* n := size v in
          Ret (VSeq (map (fun i => VRef (extend p (SIndex i))) (count (N.to_nat n) 0))))
      | _ => fun _ => Diverge
      end
  | "enumerate", [] =>
      lift (let* l := items v in
            Ret (VSeq (map (fun x => VTup [VInt Usize (fst x); snd x])
                           (combine (count (List.length l) 0) l))))
  | "zip", [w] =>
      lift (let* l := items v in let* l' := items w in
            Ret (VSeq (map (fun x => VTup [fst x; snd x]) (combine l l'))))
  | "rev", [] =>
      match v with
      | VNums t l => ret (VNums t (rev l))
      | VSeq l => ret (VSeq (rev l))
      | _ => fun _ => Diverge
      end
  | "flatten", [] =>
      lift (let* l := items v in let* ls := map_res items l in Ret (VSeq (List.concat ls)))
  | "chunks", [n] =>
      match v with
      | VNums t l => lift (let* k := index_of n in let* c := chunks l k in
                           Ret (VSeq (map (VNums t) c)))
      | _ => fun _ => Diverge
      end
  | "chunks_exact", [n] =>
      match v with
      | VNums t l => lift (let* k := index_of n in let* c := chunks_exact l k in
                           Ret (VSeq (map (VNums t) c)))
      | _ => fun _ => Diverge
      end
  | "push", [x] =>
      match recv, v, x with
      | VRef p, VNums t l, VInt u n =>
          match join t u with
          | Some j => set_place p (VNums j (l ++ [n])%list)
          | None => fun _ => Diverge
          end
      | VRef p, VSeq l, _ => set_place p (VSeq (l ++ [x])%list)
      | _, _, _ => fun _ => Diverge
      end
  | "clear", [] =>
      match recv, v with
      | VRef p, VNums t _ => set_place p (VNums t [])
      | _, _ => fun _ => Diverge
      end
  | "append", [w] =>
      (* the other vector is left empty, if it is a place *)
      bindm (deref w) (fun x =>
      match recv, v, x with
      | VRef p, VNums t l, VNums u l' =>
          match join t u with
          | Some j => bindm (set_place p (VNums j (l ++ l')%list)) (fun _ =>
              match w with VRef q => set_place q (VNums u []) | _ => ret VUnit end)
          | None => fun _ => Diverge
          end
      | VRef p, VSeq l, VSeq l' =>
          bindm (set_place p (VSeq (l ++ l')%list)) (fun _ =>
            match w with VRef q => set_place q (VSeq []) | _ => ret VUnit end)
      | _, _, _ => fun _ => Diverge
      end)
  | "split_off", [n] =>
      match recv, v with
      | VRef p, VNums t l => fun r =>
          let* k := index_of n in
          let* (a, b) := split_off l k in
          let* r' := put r p (VNums t a) in
          Ret (Val (VNums t b), r')
      | _, _ => fun _ => Diverge
      end
  | "copy_from_slice", [x] | "clone_from_slice", [x] =>
      match recv, v, x with
      | VRef p, VNums t l, VNums u src =>
          match join t u with
          | Some j => fun r => let* l' := copy_from_slice l src in
                               set_place p (VNums j l') r
          | None => fun _ => Diverge
          end
      | _, _, _ => fun _ => Diverge
      end
  | _, _ => fun _ => Diverge
  end.

(** Bytes taken by one element. *)
Definition elem_size (T : target) (t : ty) : N :=
  match t with
  | TInt i => bits T i / 8
  | TSeq _ => vec_size T
  | TOther => 0
  end.
Definition empty (t : ty) : val :=
  match t with TInt i => VNums i [] | _ => VSeq [] end.

(** The text that a format string with the arguments [args] stands for; the only
    directive in /repo is [{}]. *)
Fixpoint format (text : string) (args : list val) : res string :=
  match text with
  | "" => match args with [] => Ret "" | _ => Diverge end
  | String "{"%char (String "}"%char rest) =>
      match args with
      | VStr s :: args' => let* t := format rest args' in Ret (s ++ t)
      | _ => Diverge
      end
  | String "{"%char _ | String "}"%char _ => Diverge
  | String c rest => let* t := format rest args in Ret (String c t)
  end.

Section Eval.

Variable T : target.
Variable call : callee.
Variable cst : string -> res val.
Variable fuel : nat.

(** [place] asks for a place where there is one. *)
Fixpoint eval (place : bool) (e : expr) {struct e} : M :=
  match e with
  | EUnit => ret VUnit
  | ELit n => ret (VInt Lit n)
  | EStr s => ret (VStr s)
  | EVar x => fun r =>
      match lookup x r with
      | Some (VRef p) => Ret (Val (VRef p), r)
      | Some v => if place then Ret (Val (VRef (mkPath x [])), r) else Ret (Val v, r)
      | None => Diverge
      end
  | ECst c => lift (cst c)
  | EBin AndAlso a b =>
      bindm (eval false a) (fun v =>
        match v with
        | VBool true => eval false b
        | VBool false => ret (VBool false)
        | _ => fun _ => Diverge
        end)
  | EBin OrElse a b =>
      bindm (eval false a) (fun v =>
        match v with
        | VBool true => ret (VBool true)
        | VBool false => eval false b
        | _ => fun _ => Diverge
        end)
  | EBin op a b =>
      bindm (eval false a) (fun v => bindm (eval false b) (fun w => lift (bin T op v w)))
  | ENot a => bindm (eval false a) (fun v => lift (not_ T v))
  | ECast t a => bindm (eval false a) (fun v => lift (cast T t v))
  | EFrom t a => bindm (eval false a) (fun v => lift (from t v))
  | EMin a b =>
      bindm (eval false a) (fun v => bindm (eval false b) (fun w => lift (min_ v w)))
  | EField a f => bindm (eval true a) (fun v => into place v (SField f))
  | EIndex a i =>
      bindm (eval true a) (fun v => bindm (eval false i) (fun w r =>
        let* n := index_of w in into place v (SIndex n) r))
  | ESlice a lo hi =>
      bindm (eval true a) (fun v =>
      bindm (match lo with Some e => eval false e | None => ret (VInt Usize 0) end) (fun x =>
      bindm (match hi with
             | Some e => eval false e
             | None => bindm (deref v) (fun s => lift (let* n := size s in Ret (VInt Usize n)))
             end) (fun y r =>
        let* m := index_of x in
        let* n := index_of y in
        into place v (SSlice m n) r)))
  | ERef a => bindm (eval false a) deref
  | ERefMut a => eval true a
  | EDeref a => bindm (eval false a) (fun v => if place then ret v else deref v)
  | EArray es => all (each (eval false) es) (fun vs => lift (array vs))
  | ERepeat a n =>
      bindm (eval false a) (fun v => bindm (eval false n) (fun w =>
        lift (let* k := index_of w in Ret (repeat_val v k))))
  | EVecRepeat a n =>
      (* only used for vectors of bytes *)
      bindm (eval false a) (fun v => bindm (eval false n) (fun w =>
        lift (let* k := index_of w in let* _ := alloc T 1 k in Ret (repeat_val v k))))
  | EVecNew t => ret (empty t)
  | ECapacity t n =>
      bindm (eval false n) (fun w =>
        lift (let* k := index_of w in let* _ := alloc T (elem_size T t) k in Ret (empty t)))
  | EStruct s fs =>
      all (each (fun f => bindm (eval false (snd f)) (fun v => lift (coerce (snd (fst f)) v))) fs)
          (fun vs => ret (VStruct s (pair_up (each (fun f => fst (fst f)) fs) vs)))
  | ECon c es => all (each (eval false) es) (fun vs => ret (VCon c vs))
  | ECall f es => all (each (eval false) es) (do_call call f)
  | EMethod a m es =>
      bindm (eval true a) (fun v => all (each (eval false) es) (fun vs =>
        bindm (deref v) (fun x =>
          match type_name x with
          | Some s => do_call call (s ++ "::" ++ m) (v :: vs)
          | None => builtin T m v x vs
          end)))
  | EWrite f t es =>
      (* the formatter is the text written to it so far; writing to it succeeds *)
      bindm (eval true f) (fun p => all (each (eval false) es) (fun vs =>
        bindm (deref p) (fun x =>
          match p, x with
          | VRef q, VStr s => fun r =>
              let* s' := format t vs in
              let* r' := put r q (VStr (s ++ s')) in
              Ret (Val (VCon "Ok" [VUnit]), r')
          | _, _ => fun _ => Diverge
          end)))
  | EMap a p b =>
      bindm (eval false a) (fun v r =>
        let* l := items v in map_items (fun x => binding p x (eval false b)) l r)
  | ERange lo hi incl =>
      bindm (eval false lo) (fun v => bindm (eval false hi) (fun w => lift (range v w incl)))
  | EIf c a b =>
      bindm (eval false c) (fun v =>
        match v with
        | VBool true => eval false a
        | VBool false => eval false b
        | _ => fun _ => Diverge
        end)
  | EMatch a arms =>
      bindm (eval false a) (fun v =>
        first_arm v (each (fun x => (fst x, eval false (snd x))) arms))
  | EWhile c b => while_m fuel (eval false c) (eval false b)
  | EFor p a b =>
      bindm (bindm (eval false a) deref) (fun v r =>
        let* l := items v in for_items (fun x => binding p x (eval false b)) l r)
  | EReturn a => bindm (eval false a) (fun v r => Ret (Return v, r))
  | EContinue => fun r => Ret (Continue, r)
  | ETry a =>
      bindm (eval false a) (fun v r =>
        match v with
        | VCon "Ok" [x] => Ret (Val x, r)
        | VCon "Err" [x] => Ret (Return v, r)
        | _ => Diverge
        end)
  | EAssign p t a =>
      bindm (eval false a) (fun v => bindm (lift (coerce t v)) (fun v' =>
      bindm (eval true p) (fun q =>
        match q with VRef q => set_place q v' | _ => fun _ => Diverge end)))
  | EOpAssign op p a =>
      bindm (eval false a) (fun v => bindm (eval true p) (fun q =>
        match q with
        | VRef q' => bindm (deref q) (fun x => bindm (lift (bin T op x v)) (set_place q'))
        | _ => fun _ => Diverge
        end))
  | ELet p t a k =>
      bindm (eval false a) (fun v => bindm (lift (coerce t v)) (fun v' =>
        binding p v' (eval false k)))
  | EDeclare x k => scoped [(x, VUnit)] (eval false k)
  | ESeq a b => bindm (eval false a) (fun _ => eval false b)
  end.

(** The variables of a function before it runs.  The referent of a mutable
    reference [x] is kept in a variable of its own. *)
Definition deref_name (x : string) : string := "*" ++ x.
Fixpoint frame (ps : list (string * mode * ty)) (vs : list val) : res env :=
  match ps, vs with
  | [], [] => Ret []
  | (x, ByVal, t) :: ps', v :: vs' =>
      let* v' := coerce t v in
      let* r := frame ps' vs' in
      Ret ((x, v') :: r)
  | (x, ByMut, t) :: ps', v :: vs' =>
      let* v' := coerce t v in
      let* r := frame ps' vs' in
      Ret ((x, VRef (mkPath (deref_name x) [])) :: (deref_name x, v') :: r)
  | _, _ => Diverge
  end.
Definition finals (ps : list (string * mode * ty)) (r : env) : res (list (option val)) :=
  each_res (fun p =>
    match p with
    | (x, ByVal, _) => Ret None
    | (x, ByMut, _) => let* v := find (deref_name x) r in Ret (Some v)
    end) ps.

(** The result, and what the mutable references refer to in the end. *)
Definition run_fn (f : fn) (vs : list val) : res (val * list (option val)) :=
  let* r := frame (params f) vs in
  let* (o, r') := eval false (body f) r in
  let* v := match o with
            | Val v | Return v => coerce (ret_ty f) v
            | Continue => Diverge
            end in
  let* ws := finals (params f) r' in
  Ret (v, ws).

End Eval.

(** Constants are literals and arrays of literals. *)
Definition literal (e : expr) : res val :=
  match e with ELit n => Ret (VInt Lit n) | _ => Diverge end.
Definition constant (cs : list (string * (ty * expr))) (c : string) : res val :=
  let* (t, e) := find c cs in
  let* v := match e with
            | EArray es => let* vs := map_res literal es in array vs
            | _ => literal e
            end in
  coerce t v.

(** Running the function [f] of a program; [fuel] bounds the depth of calls and
    the number of turns of a [while]. *)
Fixpoint interp (T : target) (cs : list (string * (ty * expr))) (fs : list (string * fn))
    (fuel : nat) (f : string) (vs : list val) : res (val * list (option val)) :=
  match fuel with
  | O => Diverge
  | S n =>
      let* d := find f fs in
      run_fn T (interp T cs fs n) (constant cs) n d vs
  end.
