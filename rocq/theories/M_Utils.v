(** * M_Utils: transcription of /repo/src/ciceroscm/_utils.py and
      component_factory_functions.py *)
From Verif Require Import PyBase.

(** _utils.py 28-43: [check_numeric_pamset]. The loop over [required.items()]
    writes into [pamset]; here the updated dictionary is returned. *)
Definition check_numeric_pamset (required pamset : dict pyval) : dict pyval :=
  fold_left
    (fun d kv =>
       let pam := fst kv in let value := snd kv in
       match dget d pam with
       | None => dset d pam value
       | Some v => if is_num v then d else dset d pam value
       end)
    required pamset.

(** _utils.py 66-75: [cut_non_required]; logging dropped. *)
Definition cut_non_required (required pamset : dict pyval) : dict pyval :=
  fold_left
    (fun new kv => if dmem required (fst kv) then dset new (fst kv) (snd kv) else new)
    pamset [].

(** _utils.py 105-112: [cut_and_check_pamset]. [if used:] is "non empty". *)
Definition cut_and_check_pamset (required pamset used : dict pyval) : dict pyval :=
  let used' := match used with [] => required | _ => dupdate used required end in
  check_numeric_pamset required (cut_non_required used' pamset).

(** _utils.py 136-151: [update_pam_if_numeric]. *)
Definition update_pam_if_numeric (pamset_old : dict pyval) (pamset_new : option (dict pyval))
  (can_change : list string) : dict pyval :=
  match pamset_new with
  | None => pamset_old
  | Some new =>
      fold_left
        (fun d kv =>
           let key := fst kv in let value := snd kv in
           if negb (smem key can_change) || negb (dmem d key) then d
           else if negb (is_num value) then d
           else dset d key value)
        new pamset_old
  end.

(** ** The same functions on a heap of dictionary objects (to speak about aliasing)

    A reference is an index into the heap; a dictionary literal or copy
    allocates a new cell at the end. *)
Definition heap := list (dict pyval).
Definition ref := nat.
Definition hread (h : heap) (r : ref) : dict pyval := nth r h [].
Fixpoint hwrite (h : heap) (r : ref) (d : dict pyval) : heap :=
  match h, r with
  | [], _ => []
  | _ :: t, O => d :: t
  | x :: t, S r' => x :: hwrite t r' d
  end.
Definition halloc (h : heap) (d : dict pyval) : heap * ref := (h ++ [d], List.length h).

(** _utils.py 28-43 writes the dictionary it was given and returns it. *)
Definition check_numeric_pamset_h (h : heap) (required pamset : ref) : heap * ref :=
  (hwrite h pamset (check_numeric_pamset (hread h required) (hread h pamset)), pamset).

(** _utils.py 66-75 builds a new dictionary. *)
Definition cut_non_required_h (h : heap) (required pamset : ref) : heap * ref :=
  halloc h (cut_non_required (hread h required) (hread h pamset)).

(** _utils.py 105-112. *)
Definition cut_and_check_pamset_h (h : heap) (required pamset used : ref) : heap * ref :=
  let '(h1, used1) :=
    match hread h used with
    | [] => (h, required)
    | u => (hwrite h used (dupdate u (hread h required)), used)
    end in
  let '(h2, p2) := cut_non_required_h h1 used1 pamset in
  check_numeric_pamset_h h2 required p2.

(** _utils.py 136-151 writes [pamset_old] in place. *)
Definition update_pam_if_numeric_h (h : heap) (old : ref) (new : option ref) (can_change : list string)
  : heap * ref :=
  (hwrite h old (update_pam_if_numeric (hread h old) (option_map (hread h) new) can_change), old).

(** ** Factories *)
Inductive thermal_class := UpwellingDiffusion | TwoLayer.
Inductive carbon_class := DefaultCarbon | BoxCarbon.

(** component_factory_functions.py 33-37 *)
Definition create_carbon_cycle_model (model_type : string) : result carbon_class :=
  if String.eqb model_type "default" then Ok DefaultCarbon
  else if String.eqb model_type "box" then Ok BoxCarbon
  else Err ValueError.

(** component_factory_functions.py 59-63 *)
Definition create_thermal_model (model_type : string) : result thermal_class :=
  if String.eqb model_type "default" then Ok UpwellingDiffusion
  else if String.eqb model_type "twolayer" then Ok TwoLayer
  else Err ValueError.
