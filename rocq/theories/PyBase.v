(** * PyBase: python values, exceptions and dictionaries

    Shared vocabulary of the model.  Nothing here is specific to ciceroscm:
    it models the part of python that the transcribed code uses. *)
From Coq Require Export List String ZArith QArith Lia Bool Arith.
Export ListNotations.
Open Scope nat_scope.
Open Scope string_scope.
Open Scope list_scope.

(** ** Values *)

(** A python float: every finite IEEE double is a rational number; the three
    non finite classes are kept apart because [==] treats NaN specially. *)
Inductive pyfloat : Type :=
| FFin (q : Q)
| FInf (positive : bool)
| FNan.

(** The python values that occur in parameter dictionaries.
    [VObj n] is any other object, identified by its identity. *)
Inductive pyval : Type :=
| VInt (z : Z)            (* int *)
| VBool (b : bool)        (* bool, a subclass of int *)
| VFloat (f : pyfloat)    (* float *)
| VNpFloat (f : pyfloat)  (* numpy.float64, a subclass of float *)
| VNpInt (z : Z)          (* numpy.int64 & co: NOT a subclass of int *)
| VStr (s : string)
| VNone
| VFun (coeffs tims : list pyval)  (* the dict {"coeffs": .., "timescales": ..} *)
| VObj (n : nat).

(** [isinstance(v, int) or isinstance(v, float)] *)
Definition is_num (v : pyval) : bool :=
  match v with
  | VInt _ | VBool _ | VFloat _ | VNpFloat _ => true
  | _ => false
  end.

(** Numeric value of anything python compares as a number. *)
Definition num_of (v : pyval) : option pyfloat :=
  match v with
  | VInt z | VNpInt z => Some (FFin (inject_Z z))
  | VBool b => Some (FFin (inject_Z (if b then 1 else 0)))
  | VFloat f | VNpFloat f => Some f
  | _ => None
  end.

Definition float_eqb (a b : pyfloat) : bool :=
  match a, b with
  | FFin p, FFin q => Qeq_bool p q
  | FInf p, FInf q => Bool.eqb p q
  | _, _ => false
  end.

(** Python [==] between values that can sit under the same key. *)
Fixpoint py_eqb (a b : pyval) : bool :=
  match num_of a, num_of b with
  | Some x, Some y => float_eqb x y
  | Some _, None | None, Some _ => false
  | None, None =>
    match a, b with
    | VStr s, VStr t => String.eqb s t
    | VNone, VNone => true
    | VFun c t, VFun c' t' =>
        (fix eql (l l' : list pyval) {struct l} : bool :=
           match l, l' with
           | [], [] => true
           | x :: r, y :: r' => py_eqb x y && eql r r'
           | _, _ => false
           end) c c' &&
        (fix eql (l l' : list pyval) {struct l} : bool :=
           match l, l' with
           | [], [] => true
           | x :: r, y :: r' => py_eqb x y && eql r r'
           | _, _ => false
           end) t t'
    | VObj n, VObj m => Nat.eqb n m
    | _, _ => false
    end
  end.

(** ** Exceptions as values *)
Inductive exn : Type :=
| KeyError (k : string)
| ValueError
| IndexError
| TypeError
| RuntimeError
| FileNotFoundError
| ZeroDivisionError
| UserExn (n : nat).

Inductive result (A : Type) : Type :=
| Ok (a : A)
| Err (e : exn).
Arguments Ok {A} a.
Arguments Err {A} e.

Definition rbind {A B} (r : result A) (f : A -> result B) : result B :=
  match r with Ok a => f a | Err e => Err e end.

(** ** Dictionaries: association lists in insertion order *)
Definition dict (V : Type) : Type := list (string * V).

Fixpoint dget {V} (d : dict V) (k : string) : option V :=
  match d with
  | [] => None
  | (k', v) :: r => if String.eqb k' k then Some v else dget r k
  end.

Definition dmem {V} (d : dict V) (k : string) : bool :=
  match dget d k with Some _ => true | None => false end.

(** [d[k] = v]: in place if present, appended otherwise. *)
Fixpoint dset {V} (d : dict V) (k : string) (v : V) : dict V :=
  match d with
  | [] => [(k, v)]
  | (k', v') :: r => if String.eqb k' k then (k', v) :: r else (k', v') :: dset r k v
  end.

(** [del d[k]] / [d.pop(k)] (KeyError handled by the caller). *)
Fixpoint ddel {V} (d : dict V) (k : string) : dict V :=
  match d with
  | [] => []
  | (k', v') :: r => if String.eqb k' k then r else (k', v') :: ddel r k
  end.

Definition dkeys {V} (d : dict V) : list string := map fst d.

(** [d.update(e)], also [{**d, **e}]. *)
Definition dupdate {V} (d e : dict V) : dict V :=
  fold_left (fun acc kv => dset acc (fst kv) (snd kv)) e d.

(** A dictionary literal may repeat keys; python keeps the last value. *)
Definition wf {V} (d : dict V) : Prop := NoDup (dkeys d).

(** Membership of a string in a list of strings. *)
Definition smem (k : string) (l : list string) : bool := existsb (String.eqb k) l.
