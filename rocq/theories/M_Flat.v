(** * M_Flat: flat carbon-cycle parameters,
      transcription of /repo/src/ciceroscm/carbon_cycle/rfuns.py 8-125 *)
From Coq Require Import Ascii.
From Verif Require Import PyBase.

(** python [str.isdigit] restricted to ASCII (the code base uses ASCII keys). *)
Definition digit_val (c : ascii) : option nat :=
  let n := nat_of_ascii c in
  if (Nat.leb 48 n && Nat.leb n 57)%bool then Some (n - 48) else None.

Fixpoint all_digits (s : string) : bool :=
  match s with
  | EmptyString => true
  | String c r => match digit_val c with Some _ => all_digits r | None => false end
  end.

(** [s.isdigit()] is False on the empty string. *)
Definition isdigit (s : string) : bool :=
  match s with EmptyString => false | _ => all_digits s end.

Fixpoint parse_nat_acc (acc : nat) (s : string) : nat :=
  match s with
  | EmptyString => acc
  | String c r => match digit_val c with
                  | Some d => parse_nat_acc (10 * acc + d) r
                  | None => acc
                  end
  end.
(** [int(s)] for a digit string. *)
Definition parse_nat (s : string) : nat := parse_nat_acc 0 s.

Definition sdrop (n : nat) (s : string) : string := substring n (String.length s - n) s.

(** rfuns.py 30-34: pad with None and assign position [idx]. *)
Fixpoint put_at {V} (values : list (option V)) (idx : nat) (v : option V) : list (option V) :=
  match idx, values with
  | O, [] => [v]
  | O, _ :: r => v :: r
  | S i, [] => None :: put_at [] i v
  | S i, x :: r => x :: put_at r i v
  end.

(** A python None stored under a flat key is indistinguishable from padding. *)
Definition opt_of_val (v : pyval) : option pyval :=
  match v with VNone => None | _ => Some v end.

(** rfuns.py 28: [key.startswith(prefix) and key[len(prefix):].isdigit()] *)
Definition flat_key (prefix key : string) : bool :=
  String.prefix prefix key && isdigit (sdrop (String.length prefix) key).

Definition flat_idx (prefix key : string) : nat := parse_nat (sdrop (String.length prefix) key).

Fixpoint compact {V} (l : list (option V)) : list V :=
  match l with
  | [] => []
  | Some v :: r => v :: compact r
  | None :: r => compact r
  end.

(** rfuns.py 8-38: [_extract_indexed_parameters] *)
Definition extract_indexed_parameters (pamset : dict pyval) (prefix : string)
  : list pyval * list string :=
  let '(values, keys) :=
    fold_left
      (fun acc kv =>
         let '(values, keys) := acc in
         if flat_key prefix (fst kv)
         then (put_at values (flat_idx prefix (fst kv)) (opt_of_val (snd kv)), keys ++ [fst kv])
         else acc)
      pamset ([], []) in
  (compact values, keys).

(** rfuns.py 41-58: [_process_rb_parameters] *)
Definition process_rb_parameters (pamset : dict pyval) : result (dict pyval * list string) :=
  let '(rb_coefs, rb_coef_keys) := extract_indexed_parameters pamset "rb_coef" in
  let '(rb_tims, rb_tim_keys) := extract_indexed_parameters pamset "rb_tim" in
  match rb_coefs, rb_tims with
  | [], [] => Ok (pamset, [])
  | _, _ =>
      if negb (Nat.eqb (List.length rb_coefs) (List.length rb_tims)) then Err ValueError
      else
        let pamset' := match rb_coefs with
                       | [] => pamset
                       | _ => dset pamset "rb_function" (VFun rb_coefs rb_tims)
                       end in
        Ok (pamset', rb_coef_keys ++ rb_tim_keys)
  end.

(** rfuns.py 61-79: [_process_rs_parameters] *)
Definition process_rs_parameters (pamset : dict pyval) : result (dict pyval * list string) :=
  let '(rs_coefs, rs_coef_keys) := extract_indexed_parameters pamset "rs_coef" in
  let '(rs_tims, rs_tim_keys) := extract_indexed_parameters pamset "rs_tim" in
  match rs_coefs, rs_tims with
  | [], [] => Ok (pamset, [])
  | _, _ =>
      if negb (Nat.eqb (List.length rs_coefs) (List.length rs_tims + 1)) then Err ValueError
      else
        let pamset' := match rs_coefs with
                       | [] => pamset
                       | _ => dset pamset "rs_function" (VFun rs_coefs rs_tims)
                       end in
        Ok (pamset', rs_coef_keys ++ rs_tim_keys)
  end.

(** [pamset.pop(key)] for each key; KeyError if absent. *)
Fixpoint pop_all (d : dict pyval) (ks : list string) : result (dict pyval) :=
  match ks with
  | [] => Ok d
  | k :: r => if dmem d k then pop_all (ddel d k) r else Err (KeyError k)
  end.

Definition has_flat_prefix (key : string) : bool :=
  String.prefix "rb_coef" key || String.prefix "rb_tim" key ||
  String.prefix "rs_coef" key || String.prefix "rs_tim" key.

(** rfuns.py 103-125: [_process_flat_carbon_parameters] *)
Definition process_flat_carbon_parameters (pamset : dict pyval) : result (dict pyval) :=
  if negb (existsb has_flat_prefix (dkeys pamset)) then Ok pamset
  else
    rbind (process_rb_parameters pamset) (fun '(p1, rb_keys) =>
    rbind (process_rs_parameters p1) (fun '(p2, rs_keys) =>
    pop_all p2 (rb_keys ++ rs_keys))).
