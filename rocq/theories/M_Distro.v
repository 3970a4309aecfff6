(** * M_Distro: distributions of configurations and their files.

    Sources under /repo/src/ciceroscm/parallel: _configdistro.py 16-382, distributionrun.py 45-97. *)
From Coq Require Import Decimal DecimalString.
From Verif Require Import PyBase M_Pams Num M_Gas M_Names M_Parallel.

(** ** _configdistro.py *)
(** 73-86 *)
Definition ordering_standard_forc : list string :=
  ["rlamdo"; "akapa"; "cpi"; "W"; "beto"; "lambda"; "mixed"; "ocean_efficacy"; "delta_lambda_aero"; "threstemp"; "lm"; "ldtime"].
(** 89-95 *)
Definition set_values_default : dict pyval :=
  [("threstemp", flt 7 1); ("lm", VInt 40); ("ldtime", VInt 12); ("qbmb", VInt 0); ("qh2o_ch4", flt 91915 1000000)].

(** [sorted] on strings: code points in lexicographic order *)
Fixpoint insert_key (k : string) (l : list string) {struct l} : list string :=
  match l with [] => [k] | x :: r => if String.leb k x then k :: x :: r else x :: insert_key k r end.
Definition sorted_keys (l : list string) : list string := fold_right insert_key [] l.

(** [str(i)] of a natural number *)
Definition str_of (n : nat) : string := NilEmpty.string_of_uint (Nat.to_uint n).

(** [s.replace(old, new)] with a non empty [old]: occurrences from left to right, not overlapping *)
Fixpoint replace_fuel (fuel : nat) (old new s : string) {struct fuel} : string :=
  match fuel with
  | O => s
  | S f =>
      match s with
      | EmptyString => EmptyString
      | String a r =>
          if String.prefix old s then (new ++ replace_fuel f old new (sdrop (String.length old) s))%string
          else String a (replace_fuel f old new r)
      end
  end.
Definition replace (old new s : string) : string := replace_fuel (S (String.length s)) old new s.

Section Distro.
Context {A : Type} {N : Num A}.

(** 16-70: the default prior *)
Definition prior_flat : dict (A * A) :=
  ([ ("rlamdo", (#5, #25)); ("akapa", (dec 6 2, dec 8 1)); ("cpi", (dec 161 3, dec 569 3));
    ("W", (dec 55 2, dec 255 2)); ("beto", (#0, #7)); ("lambda", (dec 185 2 / dec 371 2, dec 801 2 / dec 371 2));
    ("mixed", (#25, #125)); ("ocean_efficacy", (dec 8 1, dec 12 1)); ("delta_lambda_aero", (dec (-7) 1, dec 34 1));
    ("qbmb", (#0, #2)); ("qo3", (dec 4 1, dec 6 1)); ("qdirso2", (dec (-6) 3, dec (-1) 3));
    ("qindso2", (dec (-3) 2, dec (-1) 2)); ("qbc", (dec 4 3, dec 5 2)); ("qoc", (dec (-8) 3, dec (-1) 3));
    ("qh2o_ch4", (dec 8 2, dec 1 1)); ("beta_f", (dec 110 3, dec 465 3)); ("mixed_carbon", (#25, #125));
    ("ml_w_sigmoid", (dec 20 1, dec 40 1)); ("ml_fracmax", (dec 3 1, dec 8 1));
    ("ml_t_half", (dec (-5) 1, dec 10 1)); ("npp0", (#55, #75)); ("t_half", (dec 3 1, dec 8 1));
    ("w_sigmoid", (#5, #10)); ("t_threshold", (#3, #7)); ("w_threshold", (#5, #10));
    ("solubility_sens", (dec 1 2, dec 3 2)); ("solubility_limit", (dec 4 1, dec 8 1));
    ("rb_coef0", (dec 3 1, dec 7 1)); ("rb_coef1", (dec 1 1, dec 4 1)); ("rb_coef2", (dec 1 1, dec 4 1));
    ("rb_tim0", (dec 10 1, dec 50 1)); ("rb_tim1", (dec 50 1, dec 200 1)); ("rb_tim2", (dec 400 1, dec 2000 1));
    ("rs_coef0", (dec 5 2, dec 15 2)); ("rs_coef1", (dec 5 1, dec 7 1)); ("rs_coef2", (dec 1 1, dec 2 1));
    ("rs_coef3", (dec 1 1, dec 2 1)); ("rs_tim0", (dec 5 1, #3)); ("rs_tim1", (dec 50 1, dec 200 1));
    ("rs_tim2", (dec 400 1, dec 2000 1)) ])%num.

(** The class after construction. The prior holds one pair per parameter of [ordering]. *)
Record distro := {
  forc : bool; method : string; ordering : list string; prior : list (A * A);
  setvalues : dict pyval;
  udm_start : dict pyval; emiconc_start : dict pyval; carbon_start : dict pyval }.

(** 187-189; values of another shape than a pair are not modelled *)
Fixpoint set_prior (distro_dict : dict (A * A)) (ordering : list string) {struct ordering} : result (list (A * A)) :=
  match ordering with
  | [] => Ok []
  | pam :: r =>
      match dget distro_dict pam with
      | None => Err (KeyError pam)
      | Some iv => do l <- set_prior distro_dict r; Ok (iv :: l)
      end
  end.

(** 192-205: [_set_pamsets_start]; the three sets *)
Definition set_pamsets_start (setvalues : dict pyval) : dict pyval * dict pyval * dict pyval :=
  fold_left (fun s kv =>
    let '(udm, emiconc, carbon) := s in
    let '(pam, value) := kv in
    if smem pam ordering_standard_forc then (dset udm pam value, emiconc, carbon)
    else if smem pam (dkeys carbon_required) then (udm, emiconc, dset carbon pam value)
    else (udm, dset emiconc pam value, carbon)) setvalues ([], [], []).

(** 139-142 *)
Definition the_prior (given : option (dict (A * A))) : dict (A * A) := match given with None => prior_flat | Some d => d end.
Definition the_values (given : option (dict pyval)) : dict pyval := match given with None => set_values_default | Some v => v end.

(** 137-163. [options] is given by its two entries, None when absent. *)
Definition distro_init (given : option (dict (A * A))) (values : option (dict pyval)) (o_forc : option bool)
  (o_method : option string) : result distro :=
  let distro_dict := the_prior given in
  let values := the_values values in
  let f := match o_forc with None => false | Some b => b end in
  let m := match o_method with None => "latin" | Some s => s end in
  let keys := sorted_keys (dkeys distro_dict) in
  let order :=
    if f then filter (fun o => smem o ordering_standard_forc && negb (dmem values o)) keys
    else filter (fun o => negb (dmem values o)) keys in
  do p <- set_prior distro_dict order;
  let '(udm, emiconc, carbon) := set_pamsets_start values in
  Ok {| forc := f; method := m; ordering := order; prior := p; setvalues := values;
        udm_start := udm; emiconc_start := emiconc; carbon_start := carbon |}.

(** 207-231. [unit] are the points of the unit cube drawn by the library, one row per sample; [qmc.scale] of
    scipy raises ValueError unless every lower bound is below its upper bound. *)
Definition scale_point (prior : list (A * A)) (point : list A) : list A :=
  map2 (fun iv u => u * (snd iv - fst iv) + fst iv)%num prior point.
Definition samples_latin (d : distro) (unit : list (list A)) : result (list (list A)) :=
  if forallb (fun iv => nltb (fst iv) (snd iv)) (prior d) then Ok (map (scale_point (prior d)) unit)
  else Err ValueError.

(** 233-257. [normal] are standard normal numbers, one row per sample, scaled as numpy does; a negative scale
    is a ValueError. *)
Definition mean_std (iv : A * A) : A * A :=
  let mean := ((fst iv + snd iv) / #2)%num in (mean, (snd iv - mean)%num).
Definition samples_gaussian (d : distro) (normal : list (list A)) : result (list (list A)) :=
  let ms := map mean_std (prior d) in
  if forallb (fun m => nleb (#0)%num (snd m)) ms
  then Ok (map (fun z => map2 (fun m x => fst m + snd m * x)%num ms z) normal)
  else Err ValueError.

(** 291-294: any method but "latin" is gaussian *)
Definition draw (d : distro) (points : list (list A)) : result (list (list A)) :=
  if String.eqb (method d) "latin" then samples_latin d points else samples_gaussian d points.

(** a numpy float as a python value *)
Variable as_float : A -> pyval.

(** 353-365: one configuration *)
Definition sort_pam (f : bool) (s : dict pyval * dict pyval * dict pyval) (pv : string * A) :=
  let '(udm, emiconc, carbon) := s in
  let '(pam, v) := pv in
  if smem pam ordering_standard_forc then (dset udm pam (as_float v), emiconc, carbon)
  else if negb f && smem pam (dkeys carbon_required) then (udm, emiconc, dset carbon pam (as_float v))
  else if negb f && (String.prefix "rb_" pam || String.prefix "rs_" pam) then (udm, emiconc, dset carbon pam (as_float v))
  else if negb f then (udm, dset emiconc pam (as_float v), carbon)
  else (udm, emiconc, carbon).
Definition single_config (d : distro) (sample : list A) (index : string) : config :=
  let '(udm, emiconc, carbon) :=
    fold_left (sort_pam (forc d)) (combine (ordering d) sample) (udm_start d, emiconc_start d, carbon_start d) in
  {| cf_udm := Some udm; cf_emiconc := Some emiconc; cf_carbon := Some carbon; cf_index := Some (VStr index) |}.

(** 322-381 without the file. A sample with too few entries, or too few samples, is an IndexError. *)
Definition make_single_config_list (d : distro) (samples : list (list A)) (numvalues : nat) (indexer_pre : string)
  : result (list config) :=
  mapM (fun i =>
    match nth_error samples i with
    | None => match ordering d with [] => Ok (single_config d [] (indexer_pre ++ str_of i)%string) | _ => Err IndexError end
    | Some s => if (List.length s <? List.length (ordering d))%nat then Err IndexError
                else Ok (single_config d s (indexer_pre ++ str_of i)%string)
    end) (seq 0 numvalues).

(** 259-320: a flat list, or a list of chunks, together with the files written (name, configurations). The
    quotient under [np.ceil] is taken exactly. *)
Inductive config_lists := Flat (l : list config) | Chunks (l : list (list config)).
Definition chunk_file (json_fname : option string) (n : nat) : option string :=
  match json_fname with Some f => Some (replace ".json" ("chunk_" ++ str_of n ++ ".json")%string f) | None => None end.
Definition chunk (d : distro) (samples : list (list A)) (numvalues m : nat) (json_fname : option string)
  (indexer_pre : string) (n : nat) : result (option string * list config) :=
  let num := Nat.min m (numvalues - n * m) in
  do l <- make_single_config_list d (firstn num (skipn (n * m) samples)) num (indexer_pre ++ "_" ++ str_of n ++ "_")%string;
  Ok (chunk_file json_fname n, l).
Definition named {B} (p : option string * B) : list (string * B) :=
  match fst p with Some f => [(f, snd p)] | None => [] end.
Definition make_config_lists (d : distro) (points : list (list A)) (numvalues : nat) (json_fname : option string)
  (indexer_pre : string) (max_chunk_size : option Z) : result (config_lists * list (string * list config)) :=
  do samples <- draw d points;
  let single :=
    do l <- make_single_config_list d samples numvalues indexer_pre;
    Ok (Flat l, named (json_fname, l)) in
  match max_chunk_size with
  | None => single
  | Some m =>
      if (Z.of_nat numvalues <? m)%Z then single
      else if (m =? 0)%Z then Err ZeroDivisionError
      else if (m <? 0)%Z then Ok (Chunks [], [])
      else
        let m := Z.to_nat m in
        do chunks <- mapM (chunk d samples numvalues m json_fname indexer_pre) (seq 0 ((numvalues + m - 1) / m));
        Ok (Chunks (map snd chunks), flat_map named chunks)
  end.
End Distro.
Arguments distro : clear implicits.

(** ** Files and distributionrun.py *)
(** A JSON value; an object keeps its order. *)
Inductive json :=
| JNull | JBool (b : bool) | JInt (z : Z) | JFloat (f : pyfloat) | JStr (s : string)
| JList (l : list json) | JObj (l : list (string * json)).

(** What a file holds after [open(.., "w")] and [json.dump]: a document, or a broken one when [json.dump]
    raised in between. *)
Inductive content := Document (j : json) | Broken.
Definition files := dict content.

(** [json.dump] on a parameter value: a numpy float is a float, a numpy integer and any other object are a
    TypeError. The two lists of a decay function are written as lists. *)
Fixpoint dump_value (v : pyval) : result json :=
  match v with
  | VInt z => Ok (JInt z)
  | VBool b => Ok (JBool b)
  | VFloat f | VNpFloat f => Ok (JFloat f)
  | VNpInt _ => Err TypeError
  | VStr s => Ok (JStr s)
  | VNone => Ok JNull
  | VFun cs ts =>
      let dump_list := fix dump_list (l : list pyval) {struct l} : result (list json) :=
        match l with [] => Ok [] | x :: r => do j <- dump_value x; do js <- dump_list r; Ok (j :: js) end in
      do cs' <- dump_list cs;
      do ts' <- dump_list ts;
      Ok (JObj [("coeffs", JList cs'); ("timescales", JList ts')])
  | VObj _ => Err TypeError
  end.
Definition dump_items (d : dict pyval) : result json :=
  do l <- mapM (fun kv => do j <- dump_value (snd kv); Ok (fst kv, j)) d; Ok (JObj l).
(** An entry that is missing in the configuration is missing in the document. *)
Definition dump_entry {B} (dump : B -> result json) (k : string) (o : option B) : result (list (string * json)) :=
  match o with Some v => do j <- dump v; Ok [(k, j)] | None => Ok [] end.
Definition dump_config (c : config) : result json :=
  do a <- dump_entry dump_items "pamset_udm" (cf_udm c);
  do b <- dump_entry dump_items "pamset_emiconc" (cf_emiconc c);
  do d <- dump_entry dump_items "pamset_carbon" (cf_carbon c);
  do e <- dump_entry dump_value "Index" (cf_index c);
  Ok (JObj (a ++ b ++ d ++ e)).
Definition dump_configs (l : list config) : result json := do js <- mapM dump_config l; Ok (JList js).

(** Opening for writing truncates the file before [json.dump] starts. *)
Definition write_json (fs : files) (name : string) (doc : result json) : files * option exn :=
  match doc with
  | Ok j => (dset fs name (Document j), None)
  | Err e => (dset fs name Broken, Some e)
  end.

(** _configdistro.py 372-381: the file of one configuration list; None is written as null *)
Definition json_of_meta (meta : option json) : json := match meta with Some j => j | None => JNull end.
Definition list_document (l : list config) (meta : option json) : result json :=
  do j <- dump_configs l;
  match meta with
  | None => Ok j
  | Some m => Ok (JObj [("configurations", j); ("meta_info", m)])
  end.
(** all files written by [make_config_lists], one after the other until one fails *)
Fixpoint write_lists (fs : files) (ls : list (string * list config)) (meta : option json) {struct ls}
  : files * option exn :=
  match ls with
  | [] => (fs, None)
  | (name, l) :: r =>
      match write_json fs name (list_document l meta) with
      | (fs', None) => write_lists fs' r meta
      | (fs', Some e) => (fs', Some e)
      end
  end.

(** Reading: [json.load] on a value of a parameter set. Containers other than a decay function are not
    modelled and become an opaque object. *)
Fixpoint load_value (j : json) : pyval :=
  match j with
  | JNull => VNone
  | JBool b => VBool b
  | JInt z => VInt z
  | JFloat f => VFloat f
  | JStr s => VStr s
  | JObj [("coeffs", JList cs); ("timescales", JList ts)] => VFun (map load_value cs) (map load_value ts)
  | JList _ | JObj _ => VObj 0
  end.
Definition load_set (l : list (string * json)) (k : string) : option (dict pyval) :=
  match dget l k with Some (JObj d) => Some (map (fun kj => (fst kj, load_value (snd kj))) d) | _ => None end.
Definition load_config (j : json) : config :=
  match j with
  | JObj l => {| cf_udm := load_set l "pamset_udm"; cf_emiconc := load_set l "pamset_emiconc";
                 cf_carbon := load_set l "pamset_carbon";
                 cf_index := match dget l "Index" with Some v => Some (load_value v) | None => None end |}
  | _ => {| cf_udm := None; cf_emiconc := None; cf_carbon := None; cf_index := None |}
  end.

(** distributionrun.py: the object. [Other] stands for anything that is not a list of configurations (a list
    of chunks, or a document of another form). *)
Inductive configurations := Configs (l : list config) | Other.
Record distribution_run := { dr_cfgs : configurations; dr_meta : option json }.

Definition meta_of (o : option json) : option json :=
  match o with Some JNull | None => None | Some j => Some j end.
Definition loaded (j : json) : configurations := match j with JList l => Configs (map load_config l) | _ => Other end.

(** 45-60; a broken document is a JSONDecodeError, which is a ValueError. [generated] is the value of
    [distro_config.make_config_lists(numvalues, indexer_pre=indexer_pre)]. *)
Definition distribution_init (fs : files) (json_file_name : string) (generated : result config_lists)
  : result distribution_run :=
  match dget fs json_file_name with
  | Some (Document (JObj l)) =>
      match dget l "configurations" with
      | Some c => Ok {| dr_cfgs := loaded c; dr_meta := meta_of (dget l "meta_info") |}
      | None => Err ValueError
      end
  | Some (Document (JList l)) => Ok {| dr_cfgs := loaded (JList l); dr_meta := None |}
  | Some _ => Err ValueError
  | None => do g <- generated;
            Ok {| dr_cfgs := match g with Flat l => Configs l | Chunks _ => Other end; dr_meta := None |}
  end.

(** 80-97: [write_configs_to_json]; only for a list of configurations *)
Definition write_configs_to_json (fs : files) (l : list config) (self_meta : option json) (json_file_name : string)
  (meta_info : option json) : files * option exn :=
  write_json fs json_file_name
    (match meta_info, self_meta with
     | None, None => dump_configs l
     | _, _ => do j <- dump_configs l; Ok (JObj [("meta_info", json_of_meta meta_info); ("configurations", j)])
     end).
