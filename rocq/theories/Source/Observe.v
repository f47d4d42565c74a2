(** The interpreter of Source/Interp.v, with a record of what a run shows to
    somebody who watches its time and its memory accesses: which way every branch
    goes, at which index or range every array is accessed, how often every loop
    runs, how large every array is that is made or that a method of [std] works
    through, which functions are called, and the operands of every division.
    What the run computes is left to Interp.v. *)
From Coq Require Import NArith List String Bool.
From Verif Require Import Rust.
From Verif.Source Require Import Syntax Interp Tree.
Import ListNotations.
Local Open Scope string_scope.
Local Open Scope N_scope.

Inductive event : Type :=
| Branch (b : bool)                (* if, while, && and || *)
| Arm (k : nat)                    (* the arm of a match that is taken *)
| At (i : N)                       (* an access to one element *)
| Part (lo hi : N)                 (* a slice *)
| Times (n : nat)                  (* the items of a for loop or of a map *)
| Fill (n : N)                     (* the size of a new array, vector or capacity *)
| Std (m : string) (n : N)         (* a method of std, on a sequence of this size *)
| Divide (a b : N)
| Call (f : string).

Definition L : Type := env -> list event * res (out * env).

Definition quiet (m : M) : L := fun r => ([], m r).
Definition bindl (m : L) (k : val -> L) : L := fun r =>
  match m r with
  | (t, Ret (Val v, r')) => let (t', x) := k v r' in ((t ++ t')%list, x)
  | (t, x) => (t, x)
  end.
(** [m], after the events [t]. *)
Definition noting (t : list event) (m : L) : L := fun r => let (t', x) := m r in ((t ++ t')%list, x).

Definition index_event (v : val) : list event :=
  match index_of v with Ret n => [At n] | _ => [] end.
Definition slice_event (v w : val) : list event :=
  match index_of v, index_of w with Ret m, Ret n => [Part m n] | _, _ => [] end.
Definition fill_event (v : val) : list event :=
  match index_of v with Ret n => [Fill n] | _ => [] end.
Definition std_event (m : string) (v : val) : list event :=
  match size v with Ret n => [Std m n] | _ => [Std m 0] end.
Definition times_event (v : val) : list event :=
  match items v with Ret l => [Times (List.length l)] | _ => [] end.
Definition divide_event (op : binop) (v w : val) : list event :=
  match op, v, w with
  | Div, VInt _ a, VInt _ b | Rem, VInt _ a, VInt _ b => [Divide a b]
  | _, _, _ => []
  end.
Definition branch_event (v : val) : list event :=
  match v with VBool b => [Branch b] | _ => [] end.

Fixpoint alll (ms : list L) (k : list val -> L) : L :=
  match ms with
  | [] => k []
  | m :: ms' => bindl m (fun v => alll ms' (fun vs => k (v :: vs)))
  end.
Definition scopedl (new : env) (m : L) : L := fun r =>
  let (t, x) := m (join_lists new r) in
  (t, let* (o, r') := x in Ret (o, drop new r')).
Definition bindingl (p : pat) (v : val) (m : L) : L := fun r =>
  match matches p v with Some new => scopedl new m r | None => ([], Diverge) end.
Fixpoint first_arml (k : nat) (v : val) (arms : list (pat * L)) : L := fun r =>
  match arms with
  | [] => ([], Diverge)
  | (p, m) :: arms' =>
      match matches p v with
      | Some new => noting [Arm k] (scopedl new m) r
      | None => first_arml (S k) v arms' r
      end
  end.
Definition oncel (m : L) : L := fun r =>
  let (t, x) := m r in
  (t, let* (o, r') := x in
      match o with Return v => Ret (Return v, r') | _ => Ret (Val VUnit, r') end).
Fixpoint for_itemsl (body : val -> L) (l : list val) : L :=
  match l with
  | [] => quiet (ret VUnit)
  | x :: l' => bindl (oncel (body x)) (fun _ => for_itemsl body l')
  end.
Fixpoint whilel (fuel : nat) (cond body : L) : L :=
  bindl cond (fun c => noting (branch_event c)
    match c with
    | VBool true =>
        match fuel with
        | O => quiet (fun _ => Diverge)
        | S f => bindl (oncel body) (fun _ => whilel f cond body)
        end
    | VBool false => quiet (ret VUnit)
    | _ => quiet (fun _ => Diverge)
    end).
Fixpoint map_itemsl (f : val -> L) (l : list val) : L :=
  match l with
  | [] => quiet (ret (VSeq []))
  | x :: l' => bindl (f x) (fun y => bindl (map_itemsl f l') (fun ys => quiet
      match ys with VSeq ys => ret (VSeq (y :: ys)) | _ => fun _ => Diverge end))
  end.

Definition calleel : Type := string -> list val -> list event * res (val * list (option val)).
Definition do_calll (call : calleel) (f : string) (vs : list val) : L := fun r =>
  match copy_in r vs with
  | Ret xs =>
      let (t, x) := call f xs in
      (Call f :: t, let* (y, ws) := x in let* r' := copy_out r vs ws in Ret (Val y, r'))
  | Panic => ([], Panic)
  | Diverge => ([], Diverge)
  end.

Section Observe.

Variable T : target.
Variable call : calleel.
Variable cst : string -> res val.
Variable fuel : nat.

Fixpoint evall (place : bool) (e : expr) {struct e} : L :=
  match e with
  | EUnit => quiet (ret VUnit)
  | ELit n => quiet (ret (VInt Lit n))
  | EStr s => quiet (ret (VStr s))
  | EVar x => quiet (fun r =>
      match lookup x r with
      | Some (VRef p) => Ret (Val (VRef p), r)
      | Some v => if place then Ret (Val (VRef (mkPath x [])), r) else Ret (Val v, r)
      | None => Diverge
      end)
  | ECst c => quiet (lift (cst c))
  | EBin AndAlso a b =>
      bindl (evall false a) (fun v => noting (branch_event v)
        match v with
        | VBool true => evall false b
        | VBool false => quiet (ret (VBool false))
        | _ => quiet (fun _ => Diverge)
        end)
  | EBin OrElse a b =>
      bindl (evall false a) (fun v => noting (branch_event v)
        match v with
        | VBool true => quiet (ret (VBool true))
        | VBool false => evall false b
        | _ => quiet (fun _ => Diverge)
        end)
  | EBin op a b =>
      bindl (evall false a) (fun v => bindl (evall false b) (fun w =>
        noting (divide_event op v w) (quiet (lift (bin T op v w)))))
  | ENot a => bindl (evall false a) (fun v => quiet (lift (not_ T v)))
  | ECast t a => bindl (evall false a) (fun v => quiet (lift (cast T t v)))
  | EFrom t a => bindl (evall false a) (fun v => quiet (lift (from t v)))
  | EMin a b =>
      bindl (evall false a) (fun v => bindl (evall false b) (fun w => quiet (lift (min_ v w))))
  | EField a f => bindl (evall true a) (fun v => quiet (into place v (SField f)))
  | EIndex a i =>
      bindl (evall true a) (fun v => bindl (evall false i) (fun w =>
        noting (index_event w) (quiet (fun r =>
          let* n := index_of w in into place v (SIndex n) r))))
  | ESlice a lo hi =>
      bindl (evall true a) (fun v =>
      bindl (match lo with Some e => evall false e | None => quiet (ret (VInt Usize 0)) end) (fun x =>
      bindl (match hi with
             | Some e => evall false e
             | None => quiet (bindm (deref v) (fun s => lift (let* n := size s in Ret (VInt Usize n))))
             end) (fun y =>
        noting (slice_event x y) (quiet (fun r =>
          let* m := index_of x in
          let* n := index_of y in
          into place v (SSlice m n) r)))))
  | ERef a => bindl (evall false a) (fun v => quiet (deref v))
  | ERefMut a => evall true a
  | EDeref a => bindl (evall false a) (fun v => quiet (if place then ret v else deref v))
  | EArray es => alll (each (evall false) es) (fun vs => quiet (lift (array vs)))
  | ERepeat a n =>
      bindl (evall false a) (fun v => bindl (evall false n) (fun w =>
        noting (fill_event w) (quiet (lift (let* k := index_of w in Ret (repeat_val v k))))))
  | EVecRepeat a n =>
      bindl (evall false a) (fun v => bindl (evall false n) (fun w =>
        noting (fill_event w)
          (quiet (lift (let* k := index_of w in let* _ := alloc T 1 k in Ret (repeat_val v k))))))
  | EVecNew t => quiet (ret (empty t))
  | ECapacity t n =>
      bindl (evall false n) (fun w =>
        noting (fill_event w)
          (quiet (lift (let* k := index_of w in let* _ := alloc T (elem_size T t) k in Ret (empty t)))))
  | EStruct s fs =>
      alll (each (fun f => bindl (evall false (snd f)) (fun v => quiet (lift (coerce (snd (fst f)) v)))) fs)
           (fun vs => quiet (ret (VStruct s (pair_up (each (fun f => fst (fst f)) fs) vs))))
  | ECon c es => alll (each (evall false) es) (fun vs => quiet (ret (VCon c vs)))
  | ECall f es => alll (each (evall false) es) (do_calll call f)
  | EMethod a m es =>
      bindl (evall true a) (fun v => alll (each (evall false) es) (fun vs =>
        bindl (quiet (deref v)) (fun x =>
          match type_name x with
          | Some s => do_calll call (s ++ "::" ++ m) (v :: vs)
          | None => noting (std_event m x) (quiet (builtin T m v x vs))
          end)))
  | EWrite f t es =>
      bindl (evall true f) (fun p => alll (each (evall false) es) (fun vs =>
        bindl (quiet (deref p)) (fun x => quiet
          match p, x with
          | VRef q, VStr s => fun r =>
              let* s' := format t vs in
              let* r' := put r q (VStr (s ++ s')) in
              Ret (Val (VCon "Ok" [VUnit]), r')
          | _, _ => fun _ => Diverge
          end)))
  | EMap a p b =>
      bindl (evall false a) (fun v =>
        noting (times_event v)
          match items v with
          | Ret l => map_itemsl (fun x => bindingl p x (evall false b)) l
          | Panic => quiet (fun _ => Panic)
          | Diverge => quiet (fun _ => Diverge)
          end)
  | ERange lo hi incl =>
      bindl (evall false lo) (fun v => bindl (evall false hi) (fun w => quiet (lift (range v w incl))))
  | EIf c a b =>
      bindl (evall false c) (fun v => noting (branch_event v)
        match v with
        | VBool true => evall false a
        | VBool false => evall false b
        | _ => quiet (fun _ => Diverge)
        end)
  | EMatch a arms =>
      bindl (evall false a) (fun v =>
        first_arml 0 v (each (fun x => (fst x, evall false (snd x))) arms))
  | EWhile c b => whilel fuel (evall false c) (evall false b)
  | EFor p a b =>
      bindl (bindl (evall false a) (fun v => quiet (deref v))) (fun v =>
        noting (times_event v)
          match items v with
          | Ret l => for_itemsl (fun x => bindingl p x (evall false b)) l
          | Panic => quiet (fun _ => Panic)
          | Diverge => quiet (fun _ => Diverge)
          end)
  | EReturn a => bindl (evall false a) (fun v => quiet (fun r => Ret (Return v, r)))
  | EContinue => quiet (fun r => Ret (Continue, r))
  | ETry a =>
      bindl (evall false a) (fun v =>
        match v with
        | VCon "Ok" [x] => noting [Branch true] (quiet (ret x))
        | VCon "Err" [x] => noting [Branch false] (quiet (fun r => Ret (Return v, r)))
        | _ => quiet (fun _ => Diverge)
        end)
  | EAssign p t a =>
      bindl (evall false a) (fun v => bindl (quiet (lift (coerce t v))) (fun v' =>
      bindl (evall true p) (fun q => quiet
        match q with VRef q => set_place q v' | _ => fun _ => Diverge end)))
  | EOpAssign op p a =>
      bindl (evall false a) (fun v => bindl (evall true p) (fun q =>
        match q with
        | VRef q' => bindl (quiet (deref q)) (fun x =>
            noting (divide_event op x v) (quiet (bindm (lift (bin T op x v)) (set_place q'))))
        | _ => quiet (fun _ => Diverge)
        end))
  | ELet p t a k =>
      bindl (evall false a) (fun v => bindl (quiet (lift (coerce t v))) (fun v' =>
        bindingl p v' (evall false k)))
  | EDeclare x k => scopedl [(x, VUnit)] (evall false k)
  | ESeq a b => bindl (evall false a) (fun _ => evall false b)
  end.

Definition observe_fn (f : fn) (vs : list val) : list event * res (val * list (option val)) :=
  match frame (params f) vs with
  | Ret r =>
      let (t, x) := evall false (body f) r in
      (t, let* (o, r') := x in
          let* v := match o with
                    | Val v | Return v => coerce (ret_ty f) v
                    | Continue => Diverge
                    end in
          let* ws := finals (params f) r' in
          Ret (v, ws))
  | Panic => ([], Panic)
  | Diverge => ([], Diverge)
  end.

End Observe.

(** The record of a call, and its outcome. *)
Fixpoint observe_in (T : target) (cs : list (string * (ty * expr))) (fs : list (string * fn))
  (fuel : nat) (f : string) (vs : list val) : list event * res (val * list (option val)) :=
  match fuel with
  | O => ([], Diverge)
  | S n =>
      match find f fs with
      | Ret d => observe_fn T (observe_in T cs fs n) (constant cs) n d vs
      | Panic => ([], Panic)
      | Diverge => ([], Diverge)
      end
  end.
Definition observe (T : target) : nat -> string -> list val -> list event * res (val * list (option val)) :=
  observe_in T constants functions.
