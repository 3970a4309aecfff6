(** * Properties_Distro: distributions of configurations and their files (C65-C68) *)
From Coq Require Import Reals Lra QArith Sorted.
From Verif Require Import PyBase PyBaseFacts Num M_Utils M_Flat M_Pams M_Gas M_Names M_Parallel M_Distro Spec_Pams Spec_Names Spec_Distro
  P_Parallel P_Distro P_Distro2 P_Distro3.
Local Open Scope nat_scope.
Local Open Scope list_scope.

(** ** C65 *)
(** The chunks, one after the other, are the flat list up to the index: every sample once and in order. *)
Theorem C65_cover : forall (A : Type) (N : Num A) (as_float : A -> pyval) d points samples m fname fname' pre pre',
  draw d points = Ok samples -> (forall s, In s samples -> List.length (ordering d) <= List.length s) -> 1 <= m <= List.length samples ->
  exists cs fs flat fs', make_config_lists as_float d points (List.length samples) fname pre (Some (Z.of_nat m)) = Ok (Chunks cs, fs) /\
    make_config_lists as_float d points (List.length samples) fname' pre' None = Ok (Flat flat, fs') /\
    Forall2 same_sets (List.concat cs) flat.
Proof. exact @c65_cover. Qed.
Print Assumptions C65_cover.
(** All chunks but the last have the maximal size, none is empty, and indices are distinct. *)
Theorem C65_sizes_and_indices : forall (A : Type) (N : Num A) (as_float : A -> pyval) d points samples m fname pre cs fs,
  draw d points = Ok samples -> (forall s, In s samples -> List.length (ordering d) <= List.length s) -> 1 <= m <= List.length samples ->
  make_config_lists as_float d points (List.length samples) fname pre (Some (Z.of_nat m)) = Ok (Chunks cs, fs) ->
  m * (List.length cs - 1) < List.length samples <= m * List.length cs /\
  (forall n c, nth_error cs n = Some c -> 1 <= List.length c <= m /\ (S n < List.length cs -> List.length c = m)) /\
  (forall n c i x, nth_error cs n = Some c -> nth_error c i = Some x -> cf_index x = Some (VStr (pre ++ "_" ++ printed n ++ "_" ++ printed i)%string)) /\
  NoDup (map cf_index (List.concat cs)).
Proof. exact @c65_sizes. Qed.
Print Assumptions C65_sizes_and_indices.
(** Without a maximal size, or with one above the number of samples: one configuration per sample with its own index. *)
Theorem C65_flat : forall (A : Type) (N : Num A) (as_float : A -> pyval) d points samples mx fname pre,
  draw d points = Ok samples -> (forall s, In s samples -> List.length (ordering d) <= List.length s) ->
  (forall m, mx = Some m -> (Z.of_nat (List.length samples) < m)%Z) ->
  exists flat, make_config_lists as_float d points (List.length samples) fname pre mx =
    Ok (Flat flat, match fname with Some f => [(f, flat)] | None => [] end) /\
  List.length flat = List.length samples /\
  (forall i s, nth_error samples i = Some s -> nth_error flat i = Some (single_config as_float d s (pre ++ printed i)%string)) /\
  NoDup (map cf_index flat).
Proof. exact @c65_flat. Qed.
Print Assumptions C65_flat.
(** Each chunk is written; the files have different names exactly if the given name has a ".json" in it. *)
Theorem C65_files : forall (A : Type) (N : Num A) (as_float : A -> pyval) d points samples m f pre,
  draw d points = Ok samples -> (forall s, In s samples -> List.length (ordering d) <= List.length s) -> 1 <= m <= List.length samples ->
  exists cs fs, make_config_lists as_float d points (List.length samples) (Some f) pre (Some (Z.of_nat m)) = Ok (Chunks cs, fs) /\
    map snd fs = cs /\ (occurs ".json" f -> NoDup (map fst fs)) /\ (~ occurs ".json" f -> forall name c, In (name, c) fs -> name = f).
Proof. exact @c65_files. Qed.
Print Assumptions C65_files.
(** A maximal size of zero is a ZeroDivisionError; a negative one loses all samples. *)
Theorem C65_bad_size : forall (A : Type) (N : Num A) (as_float : A -> pyval) d points samples n fname pre m,
  draw d points = Ok samples -> (m <= 0)%Z ->
  make_config_lists as_float d points n fname pre (Some m) = if (m =? 0)%Z then Err ZeroDivisionError else Ok (Chunks [], []).
Proof. exact @c65_bad_size. Qed.
Print Assumptions C65_bad_size.

Definition np (n : Z) (d : positive) : pyval := VNpFloat (FFin (Qmake n d)).
Definition ex_float (q : Q) : pyval := VNpFloat (FFin (Qred q)).
Definition ex_distro : result (distro Q) :=
  distro_init (N := QNum) (Some [("qo3", (1 / 2, 1)%Q); ("lambda", (1, 2)%Q); ("rs_tim0", (0, 4)%Q); ("lm", (1, 2)%Q)]) (Some [("lm", VInt 40); ("rb_coef0", VInt 1); ("beta_f", flt 3 10)])
    None None.
Definition ex_points : list (list Q) := [[0; 1 / 2; 1]; [1; 0; 1 / 4]; [1 / 2; 1; 0]]%Q.
Definition ex_lists fname mx :=
  do d <- ex_distro; make_config_lists (N := QNum) ex_float d ex_points 3 fname "x" mx.
Example C65_example :
  match ex_lists (Some "out.json") (Some 2%Z) with
  | Ok (Chunks cs, fs) => map (map cf_index) cs = [[Some (VStr "x_0_0"); Some (VStr "x_0_1")]; [Some (VStr "x_1_0")]] /\ map fst fs = ["outchunk_0.json"; "outchunk_1.json"]
  | _ => False
  end /\
  match ex_lists (Some "out.txt") (Some 2%Z) with Ok (Chunks cs, fs) => map fst fs = ["out.txt"; "out.txt"] | _ => False end /\
  match ex_lists None (Some 3%Z) with Ok (Chunks cs, fs) => map (@List.length config) cs = [3] /\ fs = [] | _ => False end /\
  match ex_lists None (Some 4%Z) with Ok (Flat l, fs) => map cf_index l = [Some (VStr "x0"); Some (VStr "x1"); Some (VStr "x2")] | _ => False end /\
  ex_lists None (Some (-1)%Z) = Ok (Chunks [], []) /\ ex_lists None (Some 0%Z) = Err ZeroDivisionError.
Proof. vm_compute. repeat split. Qed.

(** ** C66 *)
(** Sampled are the names of the prior that have no fixed value (and are thermal, for forcing runs), in alphabetic order
    and each with its own interval. *)
Theorem C66_sampled_names : forall (A : Type) (N : Num A) given values o_forc o_method, wf (the_prior given) ->
  exists d, distro_init given values o_forc o_method = Ok d /\
    setvalues d = the_values values /\ forc d = match o_forc with Some b => b | None => false end /\
    NoDup (ordering d) /\ StronglySorted (fun a b => String.leb a b = true) (ordering d) /\
    (forall k, In k (ordering d) <-> In k (dkeys (the_prior given)) /\ ~ In k (dkeys (the_values values)) /\ (forc d = true -> thermal k)) /\
    List.length (prior d) = List.length (ordering d) /\
    (forall j k, nth_error (ordering d) j = Some k -> nth_error (prior d) j = dget (the_prior given) k).
Proof. exact @c66_names. Qed.
Print Assumptions C66_sampled_names.
(** Every sampled value ends up in exactly one of the three sets. *)
Theorem C66_sampled : forall (A : Type) (N : Num A) (as_float : A -> pyval) given values o_forc o_method d s idx j k v,
  wf (the_prior given) -> distro_init given values o_forc o_method = Ok d ->
  List.length (ordering d) <= List.length s -> nth_error (ordering d) j = Some k -> nth_error s j = Some v ->
  let c := single_config as_float d s idx in
  (thermal k -> only_thermal c k (as_float v)) /\
  (~ thermal k -> carbon_number k \/ decay_name k -> only_carbon c k (as_float v)) /\
  (~ thermal k -> ~ carbon_number k -> ~ decay_name k -> only_emission c k (as_float v)).
Proof. exact @c66_sampled. Qed.
Print Assumptions C66_sampled.
(** So does every fixed value, but the decay functions' names go to the emission set. *)
Theorem C66_fixed : forall (A : Type) (N : Num A) (as_float : A -> pyval) given values o_forc o_method d s idx k v,
  wf (the_prior given) -> wf (the_values values) -> distro_init given values o_forc o_method = Ok d ->
  List.length (ordering d) <= List.length s -> dget (the_values values) k = Some v ->
  let c := single_config as_float d s idx in
  (thermal k -> only_thermal c k v) /\ (~ thermal k -> carbon_number k -> only_carbon c k v) /\ (~ thermal k -> ~ carbon_number k -> only_emission c k v).
Proof. exact @c66_fixed. Qed.
Print Assumptions C66_fixed.
Theorem C66_nothing_else : forall (A : Type) (N : Num A) (as_float : A -> pyval) given values o_forc o_method d s idx k,
  wf (the_prior given) -> distro_init given values o_forc o_method = Ok d ->
  List.length (ordering d) <= List.length s -> ~ In k (ordering d) -> ~ In k (dkeys (the_values values)) ->
  nowhere (single_config as_float d s idx) k.
Proof. exact @c66_nothing_else. Qed.
Print Assumptions C66_nothing_else.
(** A name that the handler does not know has no effect in the emission set. *)
Theorem C66_no_effect : forall p k v, ~ In k handler_names -> check_pamset (Some (dset p k v)) = check_pamset (Some p).
Proof. exact c66_ignored. Qed.
Print Assumptions C66_no_effect.
(** Without fixed values and prior given, every configuration has these five values, each in one set. *)
Theorem C66_default_values : forall (A : Type) (N : Num A) (as_float : A -> pyval) o_forc o_method d s idx,
  distro_init (A := A) None None o_forc o_method = Ok d -> List.length (ordering d) <= List.length s ->
  let c := single_config as_float d s idx in
  only_thermal c "threstemp" (flt 7 1) /\ only_thermal c "lm" (VInt 40) /\ only_thermal c "ldtime" (VInt 12) /\
  only_emission c "qbmb" (VInt 0) /\ only_emission c "qh2o_ch4" (flt 91915 1000000).
Proof. intros A N. exact (@c66_default_values A N). Qed.
Print Assumptions C66_default_values.
(** Prior and fixed values that are given replace the default ones altogether: any other name is in no set. *)
Theorem C66_nothing_but_given : forall (A : Type) (N : Num A) (as_float : A -> pyval) (pr : dict (A * A)) (vals : dict pyval) o_forc o_method d s idx k, wf pr ->
  distro_init (Some pr) (Some vals) o_forc o_method = Ok d -> List.length (ordering d) <= List.length s ->
  ~ In k (dkeys pr) -> ~ In k (dkeys vals) -> nowhere (single_config as_float d s idx) k.
Proof. intros A N. exact (@c66_nothing_but_given A N). Qed.
Print Assumptions C66_nothing_but_given.
(** Flat decay names are such names, and none of the thermal or carbon names; so is "npp0", which the default prior samples. *)
Theorem C66_decay_names : forall k, decay_name k -> ~ In k handler_names /\ ~ thermal k /\ ~ carbon_number k.
Proof. exact c66_decay_unknown. Qed.
Print Assumptions C66_decay_names.
Theorem C66_npp0_refuted : forall (A : Type) (N : Num A) (as_float : A -> pyval) d s idx j v p w,
  distro_init (A := A) None None None None = Ok d -> List.length (ordering d) <= List.length s ->
  nth_error (ordering d) j = Some "npp0" -> nth_error s j = Some v ->
  only_emission (single_config as_float d s idx) "npp0" (as_float v) /\ check_pamset (Some (dset p "npp0" w)) = check_pamset (Some p).
Proof. exact @c66_npp0. Qed.
Print Assumptions C66_npp0_refuted.
Example C66_example :
  match ex_lists None None with
  | Ok (Flat (c :: _), _) =>
      c = {| cf_udm := Some [("lm", VInt 40); ("lambda", np 1 1)]; cf_emiconc := Some [("rb_coef0", VInt 1); ("qo3", np 3 4)];
             cf_carbon := Some [("beta_f", flt 3 10); ("rs_tim0", np 4 1)]; cf_index := Some (VStr "x0") |}
  | _ => False
  end /\
  match distro_init (N := QNum) None None None None with
  | Ok d => nth_error (ordering d) 0 = Some "W" /\ nth_error (ordering d) 12 = Some "npp0" /\ List.length (ordering d) = 39
  | Err _ => False
  end /\
  match distro_init (N := QNum) None None (Some true) None with
  | Ok d => ordering d = ["W"; "akapa"; "beto"; "cpi"; "delta_lambda_aero"; "lambda"; "mixed"; "ocean_efficacy"; "rlamdo"]
  | Err _ => False
  end.
Proof. vm_compute. repeat split. Qed.

(** ** C67 *)
(** Lists written under different names are read back with their metadata; other files stay. *)
Theorem C67_round_trip : forall ls meta, (forall n l, In (n, l) ls -> Forall config_writable l) -> meta <> Some JNull -> NoDup (map fst ls) ->
  forall fs, exists fs', write_lists fs ls meta = (fs', None) /\
    (forall name l g, In (name, l) ls -> distribution_init fs' name g = Ok {| dr_cfgs := Configs (map config_as_read l); dr_meta := meta |}) /\
    (forall name, ~ In name (map fst ls) -> dget fs' name = dget fs name).
Proof. exact c67_lists. Qed.
Print Assumptions C67_round_trip.
(** What was read once is read back without any change. *)
Theorem C67_read_is_stable : forall c, config_as_read (config_as_read c) = config_as_read c.
Proof. exact config_as_read_again. Qed.
Print Assumptions C67_read_is_stable.
(** Chunks under one name (no ".json" in it, C65_files): the last one stays, the others are lost. *)
Theorem C67_overwritten : forall ls meta f l0, (forall n l, In (n, l) ls -> n = f /\ Forall config_writable l) -> Forall config_writable l0 -> meta <> Some JNull ->
  forall fs, exists fs', write_lists fs (ls ++ [(f, l0)]) meta = (fs', None) /\
    forall g, distribution_init fs' f g = Ok {| dr_cfgs := Configs (map config_as_read l0); dr_meta := meta |}.
Proof. exact c67_overwritten. Qed.
Print Assumptions C67_overwritten.
(** Rewriting keeps the configurations, but only the metadata that is passed, not that of the object. *)
Theorem C67_rewrite : forall fs l self_meta name meta, Forall config_writable l ->
  exists fs', write_configs_to_json fs l self_meta name meta = (fs', None) /\
  forall g, distribution_init fs' name g = Ok {| dr_cfgs := Configs (map config_as_read l); dr_meta := match meta with Some JNull => None | m => m end |}.
Proof. exact c67_rewrite. Qed.
Print Assumptions C67_rewrite.
Theorem C67_metadata_lost_refuted : ~ (forall fs l m name fs' g r, write_configs_to_json fs l (Some m) name None = (fs', None) ->
  distribution_init fs' name g = Ok r -> dr_meta r = Some m).
Proof. exact c67_metadata. Qed.
Print Assumptions C67_metadata_lost_refuted.
(** A value that cannot be written is a TypeError and leaves a file that cannot be read. *)
Theorem C67_unwritable : forall fs l c self_meta name meta, In c l -> ~ config_writable c ->
  exists fs', write_configs_to_json fs l self_meta name meta = (fs', Some TypeError) /\ forall g, distribution_init fs' name g = Err ValueError.
Proof. exact c67_unwritable. Qed.
Print Assumptions C67_unwritable.
(** A list that cannot be written ends the writing: the lists before it can be read, its own file cannot, every other file
    (those of the later lists too) is as it was. *)
Theorem C67_first_failure : forall ls meta f l c rest, (forall n k, In (n, k) ls -> Forall config_writable k) -> meta <> Some JNull ->
  NoDup (map fst ls ++ [f]) -> In c l -> ~ config_writable c -> forall fs, exists fs',
    write_lists fs (ls ++ (f, l) :: rest) meta = (fs', Some TypeError) /\
    (forall name k g, In (name, k) ls -> distribution_init fs' name g = Ok {| dr_cfgs := Configs (map config_as_read k); dr_meta := meta |}) /\
    (forall g, distribution_init fs' f g = Err ValueError) /\
    (forall name, ~ In name (map fst ls) -> name <> f -> dget fs' name = dget fs name).
Proof. exact c67_first_failure. Qed.
Print Assumptions C67_first_failure.
(** Without a file the generated configurations are taken as they are; generated chunks are not a list of configurations. *)
Theorem C67_no_file : forall fs name, dget fs name = None ->
  (forall e, distribution_init fs name (Err e) = Err e) /\
  (forall l, distribution_init fs name (Ok (Flat l)) = Ok {| dr_cfgs := Configs l; dr_meta := None |}) /\
  (forall ch r, distribution_init fs name (Ok (Chunks ch)) = Ok r -> dr_meta r = None /\ forall l, dr_cfgs r <> Configs l).
Proof. exact c67_no_file. Qed.
Print Assumptions C67_no_file.
Example C67_example :
  let c := {| cf_udm := Some [("lambda", np 1 2)]; cf_emiconc := Some []; cf_carbon := Some [("rs_function", VFun [VInt 1; np 1 3] [VInt 2])];
              cf_index := Some (VStr "0") |} in
  let bad := {| cf_udm := Some [("lm", VNpInt 40)]; cf_emiconc := None; cf_carbon := None; cf_index := None |} in
  let meta := Some (JObj [("by", JStr "me")]) in
  let read fs := distribution_init fs "f.json" (Ok (Flat [])) in
  let back := {| cf_udm := Some [("lambda", flt 1 2)]; cf_emiconc := Some []; cf_carbon := Some [("rs_function", VFun [VInt 1; flt 1 3] [VInt 2])];
                 cf_index := Some (VStr "0") |} in
  let fs := fst (write_lists [] [("f.json", [c])] meta) in
  fs = [("f.json", Document (JObj [("configurations", JList [JObj [("pamset_udm", JObj [("lambda", JFloat (FFin (Qmake 1 2)))]); ("pamset_emiconc", JObj []);
          ("pamset_carbon", JObj [("rs_function", JObj [("coeffs", JList [JInt 1; JFloat (FFin (Qmake 1 3))]); ("timescales", JList [JInt 2])])]); ("Index", JStr "0")]]);
          ("meta_info", JObj [("by", JStr "me")])]))] /\
  read fs = Ok {| dr_cfgs := Configs [back]; dr_meta := meta |} /\
  read (fst (write_configs_to_json fs [back] meta "f.json" None)) = Ok {| dr_cfgs := Configs [back]; dr_meta := None |} /\
  write_configs_to_json fs [back; bad] meta "f.json" None = ([("f.json", Broken)], Some TypeError) /\
  write_lists [] [("b.json", [bad]); ("f.json", [c])] None = ([("b.json", Broken)], Some TypeError) /\
  read [] = Ok {| dr_cfgs := Configs []; dr_meta := None |} /\ read [("f.json", Document (JObj []))] = Err ValueError.
Proof. vm_compute. repeat split. Qed.

(** ** C68 *)
Local Open Scope R_scope.
(** Latin samples are affine in the unit point: u from the lower to the upper bound; a prior without room is a ValueError. *)
Theorem C68_latin : forall (d : distro R) unit,
  ((exists iv, In iv (prior d) /\ snd iv <= fst iv) -> samples_latin d unit = Err ValueError) /\
  ((forall iv, In iv (prior d) -> fst iv < snd iv) -> exists s, samples_latin d unit = Ok s /\ List.length s = List.length unit /\
    forall i row, nth_error unit i = Some row -> exists out, nth_error s i = Some out /\
      forall j u lo hi, nth_error row j = Some u -> nth_error (prior d) j = Some (lo, hi) ->
        exists x, nth_error out j = Some x /\ x = (1 - u) * lo + u * hi).
Proof. exact c68_latin. Qed.
Print Assumptions C68_latin.
(** Hence within the bounds, and increasing with the unit point. *)
Theorem C68_within_bounds : forall lo hi u u', lo < hi ->
  (0 <= u <= 1 -> lo <= (1 - u) * lo + u * hi <= hi) /\ (u < u' -> (1 - u) * lo + u * hi < (1 - u') * lo + u' * hi).
Proof. exact c68_bounds. Qed.
Print Assumptions C68_within_bounds.
(** Gaussian samples: the bounds are one standard deviation from the mean. *)
Theorem C68_gaussian : forall (d : distro R) normal,
  ((exists iv, In iv (prior d) /\ snd iv < fst iv) -> samples_gaussian d normal = Err ValueError) /\
  ((forall iv, In iv (prior d) -> fst iv <= snd iv) -> exists s, samples_gaussian d normal = Ok s /\ List.length s = List.length normal /\
    forall i row, nth_error normal i = Some row -> exists out, nth_error s i = Some out /\
      forall j z lo hi, nth_error row j = Some z -> nth_error (prior d) j = Some (lo, hi) ->
        exists x, nth_error out j = Some x /\ x = (lo + hi) / 2 + (hi - lo) / 2 * z).
Proof. exact c68_gaussian. Qed.
Print Assumptions C68_gaussian.
(** The method: latin samples if it is "latin" or not given, gaussian ones for any other text. *)
Theorem C68_method : forall given values o_forc o_method (d : distro R) points, distro_init given values o_forc o_method = Ok d ->
  (o_method = None \/ o_method = Some "latin" -> draw d points = samples_latin d points) /\
  (forall m, o_method = Some m -> m <> "latin"%string -> draw d points = samples_gaussian d points).
Proof. exact c68_method. Qed.
Print Assumptions C68_method.
(** The default prior has room in every direction, so latin samples of it can always be drawn. *)
Theorem C68_default_prior : forall values o_forc d unit, distro_init (A := R) None values o_forc None = Ok d ->
  exists s, make_config_lists (fun _ => VNone) d unit 0 None "" None = Ok s /\ exists l, draw d unit = Ok l.
Proof. exact c68_default. Qed.
Print Assumptions C68_default_prior.
Example C68_example :
  match ex_distro with
  | Ok d => match samples_latin (N := QNum) d [[0; 1 / 2; 1]%Q], samples_gaussian (N := QNum) d [[-(1); 0; 1]%Q] with
            | Ok [s], Ok [g] => map Qred s = [1; Qmake 3 4; 4]%Q /\ map Qred g = [1; Qmake 3 4; 4]%Q
            | _, _ => False
            end
  | Err _ => False
  end.
Proof. vm_compute. repeat split. Qed.
