(** * P_Distro3: configuration files (C67) and samples (C68) *)
From Coq Require Import Reals Lra Sorted.
From Verif Require Import PyBase PyBaseFacts Num M_Utils M_Pams M_Gas M_Names M_Parallel M_Distro Spec_Pams Spec_Names Spec_Distro
  P_Pams P_Names P_Parallel P_Distro P_Distro2.

(** ** values *)
Definition dump_list := fix dump_list (l : list pyval) {struct l} : result (list json) :=
  match l with [] => Ok [] | x :: r => do j <- dump_value x; do js <- dump_list r; Ok (j :: js) end.
Definition all_writable := fix all (l : list pyval) : Prop := match l with [] => True | x :: r => writable x /\ all r end.
Lemma dump_fun cs ts : dump_value (VFun cs ts) = do cs' <- dump_list cs; do ts' <- dump_list ts; Ok (JObj [("coeffs", JList cs'); ("timescales", JList ts')]).
Proof. reflexivity. Qed.
Lemma writable_fun cs ts : writable (VFun cs ts) = (all_writable cs /\ all_writable ts). Proof. reflexivity. Qed.
Lemma load_fun cs ts : load_value (JObj [("coeffs", JList cs); ("timescales", JList ts)]) = VFun (map load_value cs) (map load_value ts). Proof. reflexivity. Qed.

Definition dumps (v : pyval) : Prop :=
  (writable v -> exists j, dump_value v = Ok j /\ load_value j = as_read v) /\ (~ writable v -> dump_value v = Err TypeError) /\ (writable v \/ ~ writable v).
Lemma dumps_list l : Forall dumps l -> (all_writable l -> exists js, dump_list l = Ok js /\ map load_value js = map as_read l) /\
  (~ all_writable l -> dump_list l = Err TypeError) /\ (all_writable l \/ ~ all_writable l).
Proof.
  induction 1 as [|x r (H1 & H2 & H3) _ (I1 & I2 & I3)]; cbn [all_writable dump_list map].
  - split; [exists []; auto|]. split; [intros X; exfalso; auto | auto].
  - split; [|split].
    + intros [Wx Wr]. destruct (H1 Wx) as (j & -> & Lj). destruct (I1 Wr) as (js & -> & Ljs). cbn [rbind]. exists (j :: js). split; [reflexivity|]. cbn [map]. congruence.
    + intros NW. destruct H3 as [Wx|NWx]; [|rewrite (H2 NWx); reflexivity]. destruct (H1 Wx) as (j & -> & _). cbn [rbind]. rewrite I2; [reflexivity | intros Wr; apply NW; auto].
    + destruct H3, I3; [left; auto | right; tauto | right; tauto | right; tauto].
Qed.
Lemma dumps_all : forall v, dumps v.
Proof.
  fix IH 1. intros v. destruct v as [z|b|f|f|z|s| |cs ts|n].
  1-4: (split; [intros _; eexists; split; reflexivity|]; split; [intros X; exfalso; apply X; exact I | left; exact I]).
  - split; [intros []|]. split; [reflexivity | right; intros []].
  - split; [intros _; eexists; split; reflexivity|]; split; [intros X; exfalso; apply X; exact I | left; exact I].
  - split; [intros _; eexists; split; reflexivity|]; split; [intros X; exfalso; apply X; exact I | left; exact I].
  - assert (L : forall l, Forall dumps l) by (fix IHl 1; intros [|x r]; constructor; [apply IH | apply IHl]).
    destruct (dumps_list cs (L cs)) as (C1 & C2 & C3). destruct (dumps_list ts (L ts)) as (T1 & T2 & T3).
    unfold dumps. rewrite writable_fun, dump_fun. split; [|split].
    + intros [Wc Wt]. destruct (C1 Wc) as (jc & -> & Lc). destruct (T1 Wt) as (jt & -> & Lt). cbn [rbind]. eexists. split; [reflexivity|]. rewrite load_fun, Lc, Lt. reflexivity.
    + intros NW. destruct C3 as [Wc|NWc]; [|rewrite (C2 NWc); reflexivity]. destruct (C1 Wc) as (jc & -> & _). cbn [rbind]. rewrite T2; [reflexivity | intros Wt; apply NW; auto].
    + destruct C3, T3; [left; auto | right; tauto | right; tauto | right; tauto].
  - split; [intros []|]. split; [reflexivity | right; intros []].
Qed.

Lemma as_read_again : forall v, as_read (as_read v) = as_read v.
Proof.
  fix IH 1. intros v. destruct v as [| | | | | | |cs ts|]; try reflexivity. cbn [as_read]. rewrite !map_map.
  assert (L : forall l, map (fun x => as_read (as_read x)) l = map as_read l) by (fix IHl 1; intros [|x r]; [reflexivity|]; cbn [map]; rewrite IH, IHl; reflexivity).
  rewrite !L. reflexivity.
Qed.
Lemma set_as_read_again d : set_as_read (set_as_read d) = set_as_read d.
Proof. unfold set_as_read. rewrite map_map. apply map_ext. intros [k v]. cbn [fst snd]. rewrite as_read_again. reflexivity. Qed.
Lemma config_as_read_again c : config_as_read (config_as_read c) = config_as_read c.
Proof.
  destruct c as [u e k i]. unfold config_as_read. cbn [cf_udm cf_emiconc cf_carbon cf_index].
  destruct u, e, k, i; cbn [option_map]; rewrite ?set_as_read_again, ?as_read_again; reflexivity.
Qed.
Lemma writable_as_read : forall v, writable v -> writable (as_read v).
Proof.
  fix IH 1. intros v. destruct v as [| | | | | | |cs ts|]; try (intros H; exact H). cbn [as_read]. rewrite !writable_fun.
  assert (L : forall l, all_writable l -> all_writable (map as_read l)) by (fix IHl 1; intros [|x r]; [auto|]; cbn [map all_writable]; intros [H1 H2]; split; [apply IH, H1 | apply IHl, H2]).
  intros [H1 H2]. auto.
Qed.

(** ** sets and configurations *)
Lemma dump_items_ok d : (forall k v, In (k, v) d -> writable v) ->
  exists l, dump_items d = Ok (JObj l) /\ map (fun kj => (fst kj, load_value (snd kj))) l = set_as_read d.
Proof.
  intros H. unfold dump_items. induction d as [|[k v] r IH]; [exists []; split; reflexivity|]. cbn [mapM].
  destruct (proj1 (dumps_all v) (H k v (or_introl eq_refl))) as (j & Ej & Lj). cbn [fst snd]. rewrite Ej. cbn [rbind].
  destruct IH as (l & El & Ll); [intros a b Hab; apply (H a b); right; exact Hab|].
  destruct (mapM _ r) as [l'|] eqn:M; cbn [rbind] in El |- *; [|discriminate]. injection El as ->. exists ((k, j) :: l). split; [reflexivity|].
  cbn [map fst snd]. unfold set_as_read at 1. cbn [map fst snd]. rewrite Lj. f_equal. exact Ll.
Qed.
Definition entry_ok (k : string) (o : option (dict pyval)) (l : list (string * json)) : Prop :=
  match o with
  | Some d => exists j, l = [(k, JObj j)] /\ map (fun kj => (fst kj, load_value (snd kj))) j = set_as_read d
  | None => l = []
  end.
Lemma dump_set_ok k o : set_writable o -> exists l, dump_entry dump_items k o = Ok l /\ entry_ok k o l.
Proof.
  intros H. destruct o as [d|]; [|exists []; split; reflexivity]. destruct (dump_items_ok d H) as (j & E & L). exists [(k, JObj j)].
  split; [unfold dump_entry; rewrite E; reflexivity | exists j; auto].
Qed.
Lemma dump_config_ok c : config_writable c -> exists j, dump_config c = Ok j /\ load_config j = config_as_read c.
Proof.
  intros (H1 & H2 & H3 & H4). unfold dump_config.
  destruct (dump_set_ok "pamset_udm" (cf_udm c) H1) as (a & -> & Ea). destruct (dump_set_ok "pamset_emiconc" (cf_emiconc c) H2) as (b & -> & Eb).
  destruct (dump_set_ok "pamset_carbon" (cf_carbon c) H3) as (d & -> & Ed). cbn [rbind].
  assert (exists e, dump_entry dump_value "Index" (cf_index c) = Ok e /\ match cf_index c with Some v => exists j, e = [("Index", j)] /\ load_value j = as_read v | None => e = [] end) as (e & -> & Ee).
  { destruct (cf_index c) as [v|]; [|exists []; split; reflexivity]. destruct (proj1 (dumps_all v) H4) as (j & Ej & Lj). exists [("Index", j)]. split; [unfold dump_entry; rewrite Ej; reflexivity | exists j; auto]. }
  cbn [rbind]. eexists. split; [reflexivity|]. unfold load_config, config_as_read. unfold entry_ok in *.
  destruct c as [u em k i]. cbn [cf_udm cf_emiconc cf_carbon cf_index] in *.
  destruct u as [u|]; [destruct Ea as (ja & -> & La) | subst a]; (destruct em as [em|]; [destruct Eb as (jb & -> & Lb) | subst b]);
  (destruct k as [k|]; [destruct Ed as (jd & -> & Ld) | subst d]); (destruct i as [i|]; [destruct Ee as (je & -> & Le) | subst e]);
  cbn [app option_map]; unfold load_set; cbn [dget String.eqb Ascii.eqb Bool.eqb];
  repeat match goal with H : map _ _ = set_as_read _ |- _ => rewrite H; clear H | H : load_value _ = _ |- _ => rewrite H; clear H end; reflexivity.
Qed.
Lemma dump_configs_ok l : Forall config_writable l -> exists js, dump_configs l = Ok (JList js) /\ map load_config js = map config_as_read l.
Proof.
  unfold dump_configs. induction 1 as [|c r Hc _ IH]; [exists []; split; reflexivity|]. cbn [mapM]. destruct (dump_config_ok c Hc) as (j & -> & Lj). cbn [rbind].
  destruct IH as (js & E & L). destruct (mapM dump_config r); cbn [rbind] in E |- *; [|discriminate]. injection E as ->. exists (j :: js). split; [reflexivity|]. cbn [map]. congruence.
Qed.
(** failure *)
Lemma dump_items_err d k v : In (k, v) d -> ~ writable v -> dump_items d = Err TypeError.
Proof.
  intros H NW. unfold dump_items. induction d as [|[a w] r IH]; [destruct H|]. cbn [mapM fst snd].
  destruct (dumps_all w) as (D1 & D2 & [Ww|NWw]); [|rewrite (D2 NWw); reflexivity]. destruct (D1 Ww) as (j & -> & _). cbn [rbind].
  destruct H as [E|H]; [injection E as -> ->; contradiction|]. specialize (IH H). destruct (mapM _ r); cbn [rbind] in IH |- *; [discriminate | exact IH].
Qed.
Lemma set_dec (d : dict pyval) : (forall k v, In (k, v) d -> writable v) \/ exists k v, In (k, v) d /\ ~ writable v.
Proof.
  induction d as [|[a w] r IH]; [left; intros k v []|]. destruct (dumps_all w) as (_ & _ & [Ww|NWw]); [|right; exists a, w; split; [left; reflexivity | exact NWw]].
  destruct IH as [H|(k & v & H & NW)]; [left; intros k v [E|Hin]; [injection E as <- <-; exact Ww | exact (H k v Hin)] | right; exists k, v; split; [right; exact H | exact NW]].
Qed.
Lemma dump_entry_err k o : ~ set_writable o -> dump_entry dump_items k o = Err TypeError.
Proof.
  intros H. destruct o as [d|]; [|exfalso; apply H; exact I]. unfold dump_entry. destruct (set_dec d) as [W|(a & v & Hin & NW)]; [contradiction|].
  rewrite (dump_items_err d a v Hin NW). reflexivity.
Qed.
Lemma set_writable_dec o : set_writable o \/ ~ set_writable o.
Proof. destruct o as [d|]; [|left; exact I]. destruct (set_dec d) as [W|(a & v & Hin & NW)]; [left; exact W | right; intros W; exact (NW (W a v Hin))]. Qed.
Lemma dump_config_err c : ~ config_writable c -> dump_config c = Err TypeError.
Proof.
  intros H. unfold dump_config.
  destruct (set_writable_dec (cf_udm c)) as [W1|N1]; [destruct (dump_set_ok "pamset_udm" _ W1) as (a & -> & _) | rewrite (dump_entry_err _ _ N1); reflexivity]. cbn [rbind].
  destruct (set_writable_dec (cf_emiconc c)) as [W2|N2]; [destruct (dump_set_ok "pamset_emiconc" _ W2) as (b & -> & _) | rewrite (dump_entry_err _ _ N2); reflexivity]. cbn [rbind].
  destruct (set_writable_dec (cf_carbon c)) as [W3|N3]; [destruct (dump_set_ok "pamset_carbon" _ W3) as (d & -> & _) | rewrite (dump_entry_err _ _ N3); reflexivity]. cbn [rbind].
  destruct (cf_index c) as [v|] eqn:E; [|exfalso; apply H; unfold config_writable; rewrite E; auto]. cbn [dump_entry].
  destruct (dumps_all v) as (_ & D2 & [W|NW]); [exfalso; apply H; unfold config_writable; rewrite E; auto | rewrite (D2 NW); reflexivity].
Qed.
Lemma config_dec c : config_writable c \/ ~ config_writable c.
Proof.
  unfold config_writable. destruct (set_writable_dec (cf_udm c)); [|right; tauto]. destruct (set_writable_dec (cf_emiconc c)); [|right; tauto]. destruct (set_writable_dec (cf_carbon c)); [|right; tauto].
  destruct (cf_index c) as [v|]; [|left; auto]. destruct (dumps_all v) as (_ & _ & [W|NW]); [left; auto | right; tauto].
Qed.
Lemma dump_configs_err l c : In c l -> ~ config_writable c -> dump_configs l = Err TypeError.
Proof.
  intros H NW. unfold dump_configs. induction l as [|x r IH]; [destruct H|]. cbn [mapM]. destruct (config_dec x) as [W|NWx]; [|rewrite (dump_config_err x NWx); reflexivity].
  destruct (dump_config_ok x W) as (j & -> & _). cbn [rbind]. destruct H as [->|H]; [contradiction|]. specialize (IH H). destruct (mapM dump_config r); cbn [rbind] in IH |- *; [discriminate | exact IH].
Qed.

(** ** files *)
Lemma list_document_ok l meta : Forall config_writable l -> meta <> Some JNull -> exists j, list_document l meta = Ok j /\
  forall fs name g, dget fs name = Some (Document j) ->
    distribution_init fs name g = Ok {| dr_cfgs := Configs (map config_as_read l); dr_meta := meta |}.
Proof.
  intros H NM. destruct (dump_configs_ok l H) as (js & E & L). unfold list_document. rewrite E. cbn [rbind]. destruct meta as [m|].
  - eexists. split; [reflexivity|]. intros fs name g D. unfold distribution_init. rewrite D. cbn [dget String.eqb Ascii.eqb Bool.eqb loaded].
    rewrite L. destruct m; try reflexivity. congruence.
  - eexists. split; [reflexivity|]. intros fs name g D. unfold distribution_init. rewrite D. cbn [loaded]. rewrite L. reflexivity.
Qed.
Lemma write_lists_frame ls meta : forall fs name, ~ In name (map fst ls) -> dget (fst (write_lists fs ls meta)) name = dget fs name.
Proof.
  induction ls as [|[n l] r IH]; intros fs name H; [reflexivity|]. cbn [write_lists]. unfold write_json. assert (n <> name) as Ne by (intros ->; apply H; left; reflexivity).
  destruct (list_document l meta); [rewrite IH by (intros X; apply H; right; exact X)|]; cbn [fst]; apply dget_dset_neq; congruence.
Qed.
Lemma c67_lists ls meta : (forall n l, In (n, l) ls -> Forall config_writable l) -> meta <> Some JNull -> NoDup (map fst ls) ->
  forall fs, exists fs', write_lists fs ls meta = (fs', None) /\
    (forall name l g, In (name, l) ls -> distribution_init fs' name g = Ok {| dr_cfgs := Configs (map config_as_read l); dr_meta := meta |}) /\
    (forall name, ~ In name (map fst ls) -> dget fs' name = dget fs name).
Proof.
  intros H NM. induction ls as [|[n l] r IH]; intros ND fs; [exists fs; split; [reflexivity|]; split; [intros name l g [] | reflexivity]|].
  cbn [map fst] in ND. inversion ND as [|? ? Nn Nr]; subst. cbn [write_lists]. destruct (list_document_ok l meta) as (j & Ej & Hj); [apply (H n); left; reflexivity | exact NM|].
  rewrite Ej. cbn [write_json]. destruct (IH ltac:(intros a b Hab; apply (H a); right; exact Hab) Nr (dset fs n (Document j))) as (fs' & E & R & F). exists fs'. split; [exact E|]. split.
  - intros name l0 g [X|X]; [|apply R; exact X]. injection X as <- <-. apply Hj. rewrite (F n Nn). apply dget_dset_eq.
  - intros name Hn. rewrite F by (intros X; apply Hn; right; exact X). apply dget_dset_neq. intros ->. apply Hn. left. reflexivity.
Qed.
(** Several lists under one name: the last one stays. *)
Lemma c67_overwritten ls meta f l0 : (forall n l, In (n, l) ls -> n = f /\ Forall config_writable l) -> Forall config_writable l0 -> meta <> Some JNull ->
  forall fs, exists fs', write_lists fs (ls ++ [(f, l0)]) meta = (fs', None) /\
    forall g, distribution_init fs' f g = Ok {| dr_cfgs := Configs (map config_as_read l0); dr_meta := meta |}.
Proof.
  intros H H0 NM. induction ls as [|[n l] r IH]; intros fs; cbn [app write_lists].
  - destruct (list_document_ok l0 meta H0 NM) as (j & Ej & Hj). rewrite Ej. cbn [write_json]. eexists. split; [reflexivity|]. intros g. apply Hj, dget_dset_eq.
  - destruct (list_document_ok l meta) as (j & Ej & _); [apply (H n l); left; reflexivity | exact NM|]. rewrite Ej. cbn [write_json]. apply IH. intros a b Hab. apply H. right. exact Hab.
Qed.
(** A list that cannot be written ends the writing. *)
Lemma c67_first_failure ls meta f l c rest : (forall n k, In (n, k) ls -> Forall config_writable k) -> meta <> Some JNull ->
  NoDup (map fst ls ++ [f]) -> In c l -> ~ config_writable c -> forall fs, exists fs',
    write_lists fs (ls ++ (f, l) :: rest) meta = (fs', Some TypeError) /\
    (forall name k g, In (name, k) ls -> distribution_init fs' name g = Ok {| dr_cfgs := Configs (map config_as_read k); dr_meta := meta |}) /\
    (forall g, distribution_init fs' f g = Err ValueError) /\
    (forall name, ~ In name (map fst ls) -> name <> f -> dget fs' name = dget fs name).
Proof.
  intros H NM ND Hc NW. induction ls as [|[n k] r IH]; intros fs.
  - cbn [app write_lists]. assert (list_document l meta = Err TypeError) as -> by (unfold list_document; rewrite (dump_configs_err l c Hc NW); reflexivity).
    cbn [write_json]. eexists. split; [reflexivity|]. split; [intros name k g []|]. split.
    + intros g. unfold distribution_init. rewrite dget_dset_eq. reflexivity.
    + intros name _ Nf. apply dget_dset_neq. congruence.
  - cbn [map fst app] in ND. inversion ND as [|? ? Nn Nr]; subst. cbn [app write_lists].
    destruct (list_document_ok k meta) as (j & Ej & Hj); [apply (H n); left; reflexivity | exact NM|].
    rewrite Ej. cbn [write_json]. destruct (IH ltac:(intros a b Hab; apply (H a); right; exact Hab) Nr (dset fs n (Document j))) as (fs' & E & R & B & F).
    assert (n <> f) as Nf by (intros ->; apply Nn, in_or_app; right; left; reflexivity).
    exists fs'. split; [exact E|]. split; [|split; [exact B|]].
    + intros name l0 g [X|X]; [|apply R; exact X]. injection X as <- <-. apply Hj. rewrite (F n); [apply dget_dset_eq | | exact Nf]. intros X. apply Nn, in_or_app. left. exact X.
    + intros name Hn Hf. rewrite F; [|intros X; apply Hn; right; exact X | exact Hf]. apply dget_dset_neq. intros ->. apply Hn. left. reflexivity.
Qed.
Lemma c67_no_file fs name : dget fs name = None ->
  (forall e, distribution_init fs name (Err e) = Err e) /\
  (forall l, distribution_init fs name (Ok (Flat l)) = Ok {| dr_cfgs := Configs l; dr_meta := None |}) /\
  (forall ch r, distribution_init fs name (Ok (Chunks ch)) = Ok r -> dr_meta r = None /\ forall l, dr_cfgs r <> Configs l).
Proof.
  intros H. unfold distribution_init. rewrite H. split; [reflexivity|]. split; [reflexivity|].
  intros ch r E. cbn [rbind] in E. injection E as <-. split; [reflexivity|]. discriminate.
Qed.
Lemma c67_rewrite fs l self_meta name meta : Forall config_writable l -> exists fs', write_configs_to_json fs l self_meta name meta = (fs', None) /\
  forall g, distribution_init fs' name g = Ok {| dr_cfgs := Configs (map config_as_read l); dr_meta := match meta with Some JNull => None | m => m end |}.
Proof.
  intros H. destruct (dump_configs_ok l H) as (js & E & L). unfold write_configs_to_json. rewrite E. cbn [rbind].
  destruct meta as [m|], self_meta as [s|]; cbn [write_json]; eexists; (split; [reflexivity|]); intros g; unfold distribution_init; rewrite dget_dset_eq;
  cbn [dget String.eqb Ascii.eqb Bool.eqb loaded json_of_meta]; rewrite L; try reflexivity; destruct m; reflexivity.
Qed.
Lemma c67_unwritable fs l c self_meta name meta : In c l -> ~ config_writable c ->
  exists fs', write_configs_to_json fs l self_meta name meta = (fs', Some TypeError) /\ forall g, distribution_init fs' name g = Err ValueError.
Proof.
  intros H NW. unfold write_configs_to_json. rewrite (dump_configs_err l c H NW). cbn [rbind].
  destruct meta, self_meta; cbn [write_json]; eexists; (split; [reflexivity|]); intros g; unfold distribution_init; rewrite dget_dset_eq; reflexivity.
Qed.

Local Open Scope nat_scope.
Local Open Scope list_scope.
Lemma c66_names : forall (A : Type) (N : Num A) given values o_forc o_method, wf (the_prior given) ->
  exists d, distro_init given values o_forc o_method = Ok d /\
    setvalues d = the_values values /\ forc d = match o_forc with Some b => b | None => false end /\
    NoDup (ordering d) /\ StronglySorted (fun a b => String.leb a b = true) (ordering d) /\
    (forall k, In k (ordering d) <-> In k (dkeys (the_prior given)) /\ ~ In k (dkeys (the_values values)) /\ (forc d = true -> thermal k)) /\
    List.length (prior d) = List.length (ordering d) /\
    (forall j k, nth_error (ordering d) j = Some k -> nth_error (prior d) j = dget (the_prior given) k).
Proof.
  intros A N given values o_forc o_method W. destruct (c66_construction given values o_forc o_method W) as (d & H1 & H2 & H3 & H4 & H5 & H6 & H7 & H8 & _).
  exists d. exact (conj H1 (conj H2 (conj H3 (conj H4 (conj H5 (conj H6 (conj H7 H8))))))).
Qed.
Lemma c66_npp0 : forall (A : Type) (N : Num A) (as_float : A -> pyval) d s idx j v p w,
  distro_init (A := A) None None None None = Ok d -> List.length (ordering d) <= List.length s ->
  nth_error (ordering d) j = Some "npp0" -> nth_error s j = Some v ->
  only_emission (single_config as_float d s idx) "npp0" (as_float v) /\ check_pamset (Some (dset p "npp0" w)) = check_pamset (Some p).
Proof.
  intros A N as_float d s idx j v p w E L Hj Hv. split; [|apply c66_ignored; intros H; repeat (destruct H as [H|H]; [discriminate H|]); destruct H].
  assert (W : wf (the_prior (N := N) None)) by (apply wf_lit; reflexivity).
  apply (c66_sampled as_float None None None None d s idx j "npp0" v W E L Hj Hv).
  - intros H; repeat (destruct H as [H|H]; [discriminate H|]); destruct H.
  - intros H; repeat (destruct H as [H|H]; [discriminate H|]); destruct H.
  - intros H. apply smem_decay in H. discriminate H.
Qed.
Lemma c67_metadata : ~ (forall fs l m name fs' g r, write_configs_to_json fs l (Some m) name None = (fs', None) ->
  distribution_init fs' name g = Ok r -> dr_meta r = Some m).
Proof.
  intros H. specialize (H [] [] (JObj [("by", JStr "me")]) "f" _ (Err ValueError) _ eq_refl eq_refl). discriminate H.
Qed.

(** ** samples *)
Local Open Scope R_scope.
Lemma map2_nth {B C D} (f : B -> C -> D) : forall l m j x y, nth_error l j = Some x -> nth_error m j = Some y -> nth_error (map2 f l m) j = Some (f x y).
Proof. induction l as [|a l IH]; intros [|b m] [|j] x y H1 H2; cbn in *; try discriminate; [congruence | exact (IH m j x y H1 H2)]. Qed.
Lemma forallb_iff {B} (p : B -> bool) l : (forallb p l = true /\ forall x, In x l -> p x = true) \/ (forallb p l = false /\ exists x, In x l /\ p x = false).
Proof.
  destruct (forallb p l) eqn:E; [left; split; [reflexivity | apply forallb_forall, E]|]. right. split; [reflexivity|].
  induction l as [|x r IH]; [discriminate|]. cbn in E. destruct (p x) eqn:P; [destruct IH as (y & Hy & Py); [exact E | exists y; split; [right; exact Hy | exact Py]] | exists x; split; [left; reflexivity | exact P]].
Qed.
Lemma c68_latin (d : distro R) unit : 
  ((exists iv, In iv (prior d) /\ snd iv <= fst iv) -> samples_latin d unit = Err ValueError) /\
  ((forall iv, In iv (prior d) -> fst iv < snd iv) -> exists s, samples_latin d unit = Ok s /\ List.length s = List.length unit /\
    forall i row, nth_error unit i = Some row -> exists out, nth_error s i = Some out /\
      forall j u lo hi, nth_error row j = Some u -> nth_error (prior d) j = Some (lo, hi) ->
        exists x, nth_error out j = Some x /\ x = (1 - u) * lo + u * hi).
Proof.
  unfold samples_latin. split.
  - intros (iv & Hin & Hle). destruct (forallb_iff (fun iv => nltb (fst iv) (snd iv)) (prior d)) as [[_ H]|[-> _]]; [|reflexivity].
    specialize (H iv Hin). unfold nltb in H. cbn in H. destruct (Rlt_dec (fst iv) (snd iv)); [lra | discriminate].
  - intros H. destruct (forallb_iff (fun iv => nltb (fst iv) (snd iv)) (prior d)) as [[-> _]|[_ (iv & Hin & Hf)]].
    2:{ specialize (H iv Hin). unfold nltb in Hf. cbn in Hf. destruct (Rlt_dec (fst iv) (snd iv)); [discriminate | contradiction]. }
    eexists. split; [reflexivity|]. rewrite map_length. split; [reflexivity|]. intros i row Hrow. exists (scale_point (prior d) row).
    split; [rewrite nth_error_map, Hrow; reflexivity|]. intros j u lo hi Hu Hp. unfold scale_point.
    eexists. split; [apply (map2_nth _ _ _ _ (lo, hi) u); assumption|]. rnum. cbn [fst snd]. ring.
Qed.
Lemma c68_gaussian (d : distro R) normal :
  ((exists iv, In iv (prior d) /\ snd iv < fst iv) -> samples_gaussian d normal = Err ValueError) /\
  ((forall iv, In iv (prior d) -> fst iv <= snd iv) -> exists s, samples_gaussian d normal = Ok s /\ List.length s = List.length normal /\
    forall i row, nth_error normal i = Some row -> exists out, nth_error s i = Some out /\
      forall j z lo hi, nth_error row j = Some z -> nth_error (prior d) j = Some (lo, hi) ->
        exists x, nth_error out j = Some x /\ x = (lo + hi) / 2 + (hi - lo) / 2 * z).
Proof.
  unfold samples_gaussian. cbv zeta. split.
  - intros (iv & Hin & Hle). destruct (forallb_iff (fun m => nleb (nofZ 0) (snd m)) (map mean_std (prior d))) as [[_ H]|[E _]]; [|rewrite E; reflexivity].
    specialize (H _ (in_map mean_std _ _ Hin)). unfold mean_std in H. cbn [snd] in H. rnum. cbn in H. destruct (Rle_dec _ _) as [L|]; [exfalso|discriminate]. cbn in L. lra.
  - intros H. destruct (forallb_iff (fun m => nleb (nofZ 0) (snd m)) (map mean_std (prior d))) as [[E _]|[_ (m & Hin & Hf)]].
    2:{ exfalso. apply in_map_iff in Hin as (iv & <- & Hin). specialize (H iv Hin). unfold mean_std in Hf. cbn in Hf. destruct (Rle_dec _ _) as [|L] in Hf; [discriminate|]. apply L. cbn. lra. }
    rewrite E. eexists. split; [reflexivity|]. rewrite map_length. split; [reflexivity|]. intros i row Hrow. eexists. split; [rewrite nth_error_map, Hrow; reflexivity|].
    intros j z lo hi Hz Hp. eexists. split; [apply (map2_nth _ _ _ _ (mean_std (lo, hi)) z); [rewrite nth_error_map, Hp; reflexivity | exact Hz]|].
    unfold mean_std. cbn [fst snd]. rnum. cbn. field.
Qed.
Lemma c68_default_prior : forall k lo hi, In (k, (lo, hi)) (prior_flat (A := R)) -> lo < hi.
Proof.
  intros k lo hi H. unfold prior_flat in H. repeat (destruct H as [H|H]; [injection H as _ <- <-; rdec; rnum; cbn; lra|]). destruct H.
Qed.
Lemma c68_bounds : forall lo hi u u', lo < hi ->
  (0 <= u <= 1 -> lo <= (1 - u) * lo + u * hi <= hi) /\ (u < u' -> (1 - u) * lo + u * hi < (1 - u') * lo + u' * hi).
Proof. intros lo hi u u' H. split; intros; nra. Qed.
Lemma c68_default : forall values o_forc d unit, distro_init (A := R) None values o_forc None = Ok d ->
  exists s, make_config_lists (fun _ => VNone) d unit 0 None "" None = Ok s /\ exists l, draw d unit = Ok l.
Proof.
  intros values o_forc d unit E. assert (W : wf (the_prior (A := R) None)) by (apply wf_lit; reflexivity).
  destruct (c66_construction None values o_forc None W) as (d' & E' & _ & _ & _ & _ & Ho & Lp & Hp & _). rewrite E in E'. injection E' as <-.
  assert (M : method d = "latin") by (rewrite default_prior in E; exact (distro_method prior_flat values o_forc None d E)).
  assert (Q : exists l, draw d unit = Ok l).
  { unfold draw. rewrite M. cbn [String.eqb Ascii.eqb Bool.eqb]. destruct (c68_latin d unit) as [_ [l [-> _]]]; [|eexists; reflexivity]. intros iv Hin.
    apply In_nth_error in Hin as [j Hj]. destruct (nth_error (ordering d) j) as [k|] eqn:K.
    - rewrite (Hp j k K) in Hj. apply dget_Some_In in Hj. destruct iv as [lo hi]. exact (c68_default_prior k lo hi Hj).
    - apply nth_error_None in K. assert (j < List.length (prior d))%nat by (apply nth_error_Some; congruence). lia. }
  destruct Q as [l Q]. unfold make_config_lists. rewrite Q. cbn [rbind seq]. eexists. split; [reflexivity | eexists; reflexivity].
Qed.
Lemma c68_method given values o_forc o_method (d : distro R) points : distro_init given values o_forc o_method = Ok d ->
  (o_method = None \/ o_method = Some "latin" -> draw d points = samples_latin d points) /\
  (forall m, o_method = Some m -> m <> "latin"%string -> draw d points = samples_gaussian d points).
Proof.
  intros E. assert (M : method d = match o_method with Some m => m | None => "latin" end).
  { destruct given as [pr|]; [exact (distro_method pr values o_forc o_method d E)|]. rewrite default_prior in E. exact (distro_method prior_flat values o_forc o_method d E). }
  unfold draw. rewrite M. split.
  - intros [->| ->]; reflexivity.
  - intros m -> NE. destruct (String.eqb_spec m "latin"); [contradiction|reflexivity].
Qed.
Lemma c66_default_values {A} {N : Num A} (as_float : A -> pyval) o_forc o_method d s idx :
  distro_init (A := A) None None o_forc o_method = Ok d -> (List.length (ordering d) <= List.length s)%nat ->
  let c := single_config as_float d s idx in
  only_thermal c "threstemp" (flt 7 1) /\ only_thermal c "lm" (VInt 40) /\ only_thermal c "ldtime" (VInt 12) /\
  only_emission c "qbmb" (VInt 0) /\ only_emission c "qh2o_ch4" (flt 91915 1000000).
Proof.
  intros E L. assert (W : wf (the_prior (A := A) None)) by (apply wf_lit; reflexivity). assert (V : wf (the_values None)) by (apply wf_lit; reflexivity).
  assert (F := fun k v => c66_fixed as_float None None o_forc o_method d s idx k v W V E L). cbv zeta in *.
  split; [apply (F "threstemp"); [reflexivity|cbv; tauto]|]. split; [apply (F "lm"); [reflexivity|cbv; tauto]|]. split; [apply (F "ldtime"); [reflexivity|cbv; tauto]|].
  split; (apply F; [reflexivity| |]; cbv; intuition discriminate).
Qed.
Lemma c66_nothing_but_given {A} {N : Num A} (as_float : A -> pyval) (pr : dict (A * A)) (vals : dict pyval) o_forc o_method d s idx k : wf pr ->
  distro_init (Some pr) (Some vals) o_forc o_method = Ok d -> (List.length (ordering d) <= List.length s)%nat ->
  ~ In k (dkeys pr) -> ~ In k (dkeys vals) -> nowhere (single_config as_float d s idx) k.
Proof.
  intros W E L P V. apply (c66_nothing_else as_float (Some pr) (Some vals) o_forc o_method d s idx k W E L); [|exact V].
  destruct (c66_construction (Some pr) (Some vals) o_forc o_method W) as (d' & E' & _ & _ & _ & _ & Ho & _). rewrite E in E'. injection E' as <-.
  intros I. apply Ho in I. destruct I as [I _]. exact (P I).
Qed.
