(** * P_Distro2: names without effect (C66), chunks and their names (C65) *)
From Coq Require Import Ascii DecimalString.
From Verif Require Import PyBase PyBaseFacts Num M_Utils M_Pams M_Gas M_Names M_Parallel M_Distro Spec_Pams Spec_Names Spec_Distro
  P_Pams P_Names P_Parallel P_Distro.
Transparent check_pamset check_pamset_caller handler_required handler_used cut_and_check_pamset.

(** ** names that the handler does not know *)
Lemma cut_filter r p : cut_non_required r p = cut_non_required r (filter (fun kv => dmem r (fst kv)) p).
Proof.
  unfold cut_non_required. generalize (@nil (string * pyval)) as acc. induction p as [|[k v] p IH]; intros acc; [reflexivity|]. cbn [fold_left filter fst snd].
  destruct (dmem r k) eqn:E; [cbn [fold_left fst snd]; rewrite E|]; apply IH.
Qed.
Lemma filter_dset_out (r p : dict pyval) k v : dmem r k = false -> filter (fun kv => dmem r (fst kv)) (dset p k v) = filter (fun kv => dmem r (fst kv)) p.
Proof.
  intros H. induction p as [|[a w] p IH]; cbn [dset filter fst]; [rewrite H; reflexivity|]. destruct (String.eqb_spec a k) as [->|_]; cbn [filter fst].
  - rewrite H. reflexivity.
  - rewrite IH. reflexivity.
Qed.
Lemma filter_dset_in (r p : dict pyval) k v : dmem r k = true -> filter (fun kv => dmem r (fst kv)) (dset p k v) = dset (filter (fun kv => dmem r (fst kv)) p) k v.
Proof.
  intros H. induction p as [|[a w] p IH]; cbn [dset filter fst]; [rewrite H; reflexivity|]. destruct (String.eqb_spec a k) as [->|Ne]; cbn [filter fst].
  - rewrite H. cbn [dset]. rewrite String.eqb_refl. reflexivity.
  - rewrite IH. destruct (dmem r a); [|reflexivity]. cbn [dset]. apply String.eqb_neq in Ne. rewrite Ne. reflexivity.
Qed.
Lemma dmem_dset_neq (p : dict pyval) k v x : k <> x -> dmem (dset p k v) x = dmem p x.
Proof. intros H. unfold dmem. rewrite dget_dset_neq by congruence. reflexivity. Qed.
Lemma c66_ignored p k v : ~ In k handler_names -> check_pamset (Some (dset p k v)) = check_pamset (Some p).
Proof.
  intros H. unfold check_pamset, cut_and_check_pamset. f_equal. cbn [handler_used]. fold handler_used.
  set (r := dupdate handler_used handler_required). rewrite cut_filter, (cut_filter r (check_pamset_caller (Some p))). f_equal.
  assert (R : dmem r k = false).
  { destruct (dmem r k) eqn:E; [|reflexivity]. exfalso. apply H. apply dget_In_keys in E. revert E. generalize k. apply Forall_forall.
    unfold r. apply Forall_forall. intros x Hx. vm_compute in Hx. repeat (destruct Hx as [<-|Hx]; [apply smem_In; reflexivity|]). destruct Hx. }
  assert (K1 : k <> "lifetime_mode") by (intros ->; apply H, smem_In; reflexivity).
  assert (K2 : k <> "carbon_cycle_model") by (intros ->; apply H, smem_In; reflexivity).
  assert (R1 : dmem r "lifetime_mode" = true) by reflexivity. assert (R2 : dmem r "carbon_cycle_model" = true) by reflexivity. clearbody r.
  unfold check_pamset_caller. rewrite (dmem_dset_neq p k v "lifetime_mode" K1).
  destruct (dmem p "lifetime_mode") eqn:E1.
  - rewrite (dmem_dset_neq p k v "carbon_cycle_model" K2). destruct (dmem p "carbon_cycle_model"); rewrite ?(filter_dset_in _ _ "carbon_cycle_model") by exact R2; rewrite filter_dset_out by exact R; reflexivity.
  - assert (D : forall q, dmem (dset q "lifetime_mode" (VStr "TAR")) "carbon_cycle_model" = dmem q "carbon_cycle_model") by (intros q; apply dmem_dset_neq; discriminate).
    rewrite !D, (dmem_dset_neq p k v "carbon_cycle_model" K2).
    destruct (dmem p "carbon_cycle_model"); rewrite ?(filter_dset_in _ _ "carbon_cycle_model") by exact R2; rewrite ?(filter_dset_in _ _ "lifetime_mode") by exact R1; rewrite filter_dset_out by exact R; reflexivity.
Qed.
Lemma c66_decay_unknown k : decay_name k -> ~ In k handler_names /\ ~ thermal k /\ ~ carbon_number k.
Proof.
  intros D. apply smem_decay in D. split; [|split].
  - intros H. repeat (destruct H as [<-|H]; [discriminate D|]). destruct H.
  - intros H. repeat (destruct H as [<-|H]; [discriminate D|]). destruct H.
  - intros H. repeat (destruct H as [<-|H]; [discriminate D|]). destruct H.
Qed.

(** ** printed numbers in names *)
Lemma str_printed n : str_of n = printed n. Proof. reflexivity. Qed.
Lemma printed_inj n m : printed n = printed m -> n = m.
Proof. intros E. apply Nat2Z.inj. rewrite <- !printed_value, E. reflexivity. Qed.
Lemma sapp_cancel a x y : (a ++ x)%string = (a ++ y)%string -> x = y.
Proof. induction a as [|c a IH]; cbn [append]; [auto|]. intros E. injection E as E. exact (IH E). Qed.
Lemma digits_split a a' c x x' : digits_only a = true -> digits_only a' = true -> isdigit c = false ->
  (a ++ String c x)%string = (a' ++ String c x')%string -> a = a' /\ x = x'.
Proof.
  revert a'. induction a as [|d a IH]; intros [|d' a'] D D' C E; cbn [append digits_only] in *.
  - injection E as ->. auto.
  - injection E as -> E. rewrite C in D'. discriminate.
  - injection E as -> E. rewrite C in D. discriminate.
  - injection E as -> E. apply andb_prop in D as [_ D]. apply andb_prop in D' as [_ D']. destruct (IH a' D D' C E) as [-> ->]. auto.
Qed.
Lemma printed_digits n : digits_only (printed n) = true.
Proof. apply sou_digits. Qed.
Lemma chunk_index_inj pre n i n' i' : (pre ++ "_" ++ printed n ++ "_" ++ printed i)%string = (pre ++ "_" ++ printed n' ++ "_" ++ printed i')%string -> n = n' /\ i = i'.
Proof.
  intros E. apply sapp_cancel in E. apply (sapp_cancel "_") in E. change ("_" ++ printed i)%string with (String "_" (printed i)) in E. change ("_" ++ printed i')%string with (String "_" (printed i')) in E.
  apply digits_split in E as [E1 E2]; try apply printed_digits; [|reflexivity]. split; apply printed_inj; assumption.
Qed.

(** ** replace *)
Lemma replace_absent old new s : forall fuel, ~ occurs old s -> replace_fuel fuel old new s = s.
Proof.
  intros fuel. revert s. induction fuel as [|fuel IH]; intros s H; [reflexivity|]. cbn [replace_fuel]. destruct s as [|a r]; [reflexivity|].
  destruct (String.prefix old (String a r)) eqn:P.
  - exfalso. apply H. apply prefix_ex in P as [b ->]. exists ""%string, b. reflexivity.
  - f_equal. apply IH. intros (x & y & ->). apply H. exists (String a x), y. reflexivity.
Qed.
Lemma replace_present old s : forall fuel, (String.length s < fuel)%nat -> occurs old s -> old <> ""%string ->
  exists a, forall new, exists r, replace_fuel fuel old new s = (a ++ new ++ r)%string.
Proof.
  intros fuel. revert s. induction fuel as [|fuel IH]; intros s L H NE; [lia|]. cbn [replace_fuel]. destruct s as [|a r].
  - exfalso. destruct H as (x & y & E). destruct x; [|discriminate]. destruct old; [contradiction | discriminate].
  - destruct (String.prefix old (String a r)) eqn:P.
    + exists ""%string. intros new. eexists. reflexivity.
    + destruct (IH r) as [a' Ha']; [cbn in L; lia | | exact NE |].
      * destruct H as (x & y & E). destruct x as [|c x]; [|injection E as -> ->; exists x, y; reflexivity].
        cbn [append] in E. rewrite E in P. rewrite prefix_app in P. discriminate.
      * exists (String a a'). intros new. destruct (Ha' new) as [q ->]. exists q. reflexivity.
Qed.
Lemma chunk_file_inj f n n' : occurs ".json" f -> chunk_file (Some f) n = chunk_file (Some f) n' -> n = n'.
Proof.
  intros H E. unfold chunk_file in E. apply (f_equal (fun o => match o with Some x => x | None => ""%string end)) in E. cbv beta iota in E. unfold replace in E.
  destruct (replace_present ".json" f (S (String.length f))) as [a Ha]; [lia | exact H | discriminate|].
  destruct (Ha ("chunk_" ++ str_of n ++ ".json")%string) as [r Hr]. destruct (Ha ("chunk_" ++ str_of n' ++ ".json")%string) as [r' Hr'].
  rewrite Hr, Hr' in E. apply sapp_cancel in E. rewrite !sapp_assoc in E. apply (sapp_cancel "chunk_") in E. cbn [append] in E.
  apply digits_split in E as [E _]; [apply printed_inj, E | apply printed_digits | apply printed_digits | reflexivity].
Qed.
Lemma chunk_file_same f n : ~ occurs ".json" f -> chunk_file (Some f) n = Some f.
Proof. intros H. unfold chunk_file, replace. rewrite replace_absent by exact H. reflexivity. Qed.

(** ** chunks *)
Lemma NoDup_blocks {B} (g : nat -> list B) l : NoDup l -> (forall n, NoDup (g n)) ->
  (forall n n' x, In x (g n) -> In x (g n') -> n = n') -> NoDup (List.concat (map g l)).
Proof.
  intros Hl Hg Hd. induction Hl as [|n r Hn Hr IH]; cbn [map List.concat]; [constructor|].
  assert (Q : forall x, In x (g n) -> ~ In x (List.concat (map g r))).
  { intros x Hx H. apply in_concat in H as (y & Hy & Hx'). apply in_map_iff in Hy as (n' & <- & Hn'). rewrite (Hd n n' x Hx Hx') in Hn. contradiction. }
  specialize (Hg n). induction Hg as [|x xs Hx Hxs IH2]; [exact IH|]. cbn [app]. constructor.
  - rewrite in_app_iff. intros [H|H]; [contradiction | exact (Q x (or_introl eq_refl) H)].
  - apply IH2. intros y Hy. apply Q. right. exact Hy.
Qed.

Section C.
Context {A : Type} {N : Num A}.
Variable as_float : A -> pyval.
Implicit Types (d : distro A) (samples : list (list A)).
Definition full d (s : list A) : Prop := (List.length (ordering d) <= List.length s)%nat.

Lemma single_list_ok d samples n pre : (forall s, In s samples -> full d s) -> (n <= List.length samples)%nat ->
  make_single_config_list as_float d samples n pre =
  Ok (map (fun i => single_config as_float d (nth i samples []) (pre ++ printed i)%string) (seq 0 n)).
Proof.
  intros H L. unfold make_single_config_list. apply mapM_ok. intros i Hi. apply in_seq in Hi.
  destruct (nth_error samples i) as [s|] eqn:E; [|apply nth_error_None in E; lia].
  pose proof (H s (nth_error_In _ _ E)) as F. unfold full in F. destruct (Nat.ltb_spec (List.length s) (List.length (ordering d))); [lia|].
  rewrite (nth_error_nth _ _ [] E). reflexivity.
Qed.
Lemma same_list d samples pre k : forall n, n = List.length samples ->
  Forall2 same_sets (map (fun i => single_config as_float d (nth i samples []) (pre ++ printed (k + i))%string) (seq 0 n))
    (map (fun s => single_config as_float d s ""%string) samples).
Proof.
  revert k. induction samples as [|s r IH]; intros k n ->; cbn [List.length seq map]; [constructor|]. constructor.
  - unfold same_sets. rewrite !sets_of. cbv zeta. auto.
  - rewrite <- seq_shift, map_map. cbn [nth]. specialize (IH (S k) _ eq_refl).
    erewrite map_ext; [exact IH|]. intros i. cbv beta. replace (k + S i)%nat with (S k + i)%nat by lia. reflexivity.
Qed.

Definition slice (m k : nat) samples := firstn m (skipn (k * m) samples).
Definition chunk_list d samples pre m k : list config :=
  map (fun i => single_config as_float d (nth i (slice m k samples) []) (pre ++ "_" ++ printed k ++ "_" ++ printed i)%string) (seq 0 (List.length (slice m k samples))).
Lemma slice_length m k samples : List.length (slice m k samples) = Nat.min m (List.length samples - k * m).
Proof. unfold slice. rewrite firstn_length, skipn_length. reflexivity. Qed.
Lemma chunk_ok d samples m fname pre k : (forall s, In s samples -> full d s) ->
  chunk as_float d samples (List.length samples) m fname pre k = Ok (chunk_file fname k, chunk_list d samples pre m k).
Proof.
  intros H. unfold chunk. cbv zeta. assert (E : firstn (Nat.min m (List.length samples - k * m)) (skipn (k * m) samples) = slice m k samples).
  { unfold slice. destruct (Nat.le_ge_cases m (List.length samples - k * m)) as [L|L]; [rewrite Nat.min_l by exact L; reflexivity|].
    rewrite Nat.min_r by exact L. rewrite !firstn_all2; [reflexivity | rewrite skipn_length; lia | rewrite skipn_length; lia]. }
  rewrite E, single_list_ok.
  - cbn [rbind]. f_equal. f_equal. unfold chunk_list. rewrite slice_length. apply map_ext. intros i. rewrite !sapp_assoc. reflexivity.
  - intros s Hs. apply H. unfold slice in Hs. exact (in_skipn _ _ _ (in_firstn _ _ _ Hs)).
  - rewrite slice_length. lia.
Qed.
Lemma ceil_bounds n m : (1 <= m)%nat -> (n <= (n + m - 1) / m * m)%nat /\ (forall k, (k < (n + m - 1) / m)%nat -> (k * m < n)%nat).
Proof.
  intros Hm. pose proof (Nat.div_mod (n + m - 1) m ltac:(lia)) as E. pose proof (Nat.mod_upper_bound (n + m - 1) m ltac:(lia)) as B.
  set (q := ((n + m - 1) / m)%nat) in *. split; [nia|]. intros k Hk. nia.
Qed.

Lemma chunks_ok d points samples m fname pre : draw d points = Ok samples -> (forall s, In s samples -> full d s) ->
  (1 <= m <= List.length samples)%nat ->
  let cs := map (chunk_list d samples pre m) (seq 0 ((List.length samples + m - 1) / m)) in
  make_config_lists as_float d points (List.length samples) fname pre (Some (Z.of_nat m)) =
    Ok (Chunks cs, flat_map named (combine (map (chunk_file fname) (seq 0 (List.length cs))) cs)).
Proof.
  intros Hd H Hm. cbv zeta. unfold make_config_lists. rewrite Hd. cbn [rbind].
  destruct (Z.ltb_spec (Z.of_nat (List.length samples)) (Z.of_nat m)); [lia|]. destruct (Z.eqb_spec (Z.of_nat m) 0); [lia|]. destruct (Z.ltb_spec (Z.of_nat m) 0); [lia|].
  rewrite Nat2Z.id. rewrite (mapM_ok _ (fun k => (chunk_file fname k, chunk_list d samples pre m k))) by (intros k _; apply chunk_ok, H).
  cbn [rbind]. rewrite map_map. cbn [snd]. f_equal. f_equal. f_equal. rewrite map_length, seq_length. induction (seq 0 _) as [|k r IH]; [reflexivity|]. cbn [map combine]. f_equal. exact IH.
Qed.
Lemma flat_ok d points samples fname pre mx : draw d points = Ok samples -> (forall s, In s samples -> full d s) ->
  (forall m, mx = Some m -> (Z.of_nat (List.length samples) < m)%Z) ->
  let flat := map (fun i => single_config as_float d (nth i samples []) (pre ++ printed i)%string) (seq 0 (List.length samples)) in
  make_config_lists as_float d points (List.length samples) fname pre mx = Ok (Flat flat, named (fname, flat)).
Proof.
  intros Hd H Hm. cbv zeta. unfold make_config_lists. rewrite Hd. cbn [rbind]. rewrite single_list_ok by (exact H || lia). cbn [rbind].
  destruct mx as [m|]; [|reflexivity]. specialize (Hm m eq_refl). apply Z.ltb_lt in Hm. rewrite Hm. reflexivity.
Qed.

(** Chunks give the flat list, up to the index. *)
Lemma c65_cover d points samples m fname fname' pre pre' : draw d points = Ok samples -> (forall s, In s samples -> full d s) ->
  (1 <= m <= List.length samples)%nat ->
  exists cs fs flat fs', make_config_lists as_float d points (List.length samples) fname pre (Some (Z.of_nat m)) = Ok (Chunks cs, fs) /\
    make_config_lists as_float d points (List.length samples) fname' pre' None = Ok (Flat flat, fs') /\
    Forall2 same_sets (List.concat cs) flat.
Proof.
  intros Hd H Hm. do 4 eexists. split; [apply (chunks_ok d points samples m); assumption|]. split; [apply flat_ok; [exact Hd | exact H | discriminate]|].
  assert (S1 : forall l1 l2 l3, Forall2 same_sets l1 l3 -> Forall2 same_sets l2 l3 -> Forall2 same_sets l1 l2).
  { clear. intros l1 l2 l3 H1. revert l2. induction H1 as [|x y l1 l3 Hx _ IH]; intros l2 H2; inversion H2; subst; constructor; [|apply IH; assumption].
    unfold same_sets in *. intuition congruence. }
  apply (S1 _ _ (map (fun s => single_config as_float d s ""%string) samples)); [|exact (same_list d samples pre' 0 _ eq_refl)].
  destruct (ceil_bounds (List.length samples) m ltac:(lia)) as [Hc _]. rewrite <- (concat_slices m ((List.length samples + m - 1) / m) samples ltac:(lia) Hc) at 3.
  rewrite concat_map, map_map. induction (seq 0 _) as [|k r IH]; cbn [map List.concat]; [constructor|]. apply Forall2_app; [|exact IH].
  unfold chunk_list. change (firstn m (skipn (k * m) samples)) with (slice m k samples).
  pose proof (same_list d (slice m k samples) (pre ++ "_" ++ printed k ++ "_")%string 0 _ eq_refl) as Q. cbn [Nat.add] in Q.
  erewrite map_ext; [exact Q|]. intros i. cbv beta. rewrite !sapp_assoc. reflexivity.
Qed.
(** Number and size of chunks, and their indices. *)
Lemma c65_sizes d points samples m fname pre cs fs : draw d points = Ok samples -> (forall s, In s samples -> full d s) ->
  (1 <= m <= List.length samples)%nat ->
  make_config_lists as_float d points (List.length samples) fname pre (Some (Z.of_nat m)) = Ok (Chunks cs, fs) ->
  (m * (List.length cs - 1) < List.length samples <= m * List.length cs)%nat /\
  (forall n c, nth_error cs n = Some c -> (1 <= List.length c <= m)%nat /\ ((S n < List.length cs)%nat -> List.length c = m)) /\
  (forall n c i x, nth_error cs n = Some c -> nth_error c i = Some x -> cf_index x = Some (VStr (pre ++ "_" ++ printed n ++ "_" ++ printed i)%string)) /\
  NoDup (map cf_index (List.concat cs)).
Proof.
  intros Hd H Hm E. rewrite (chunks_ok d points samples m fname pre Hd H Hm) in E. injection E as <- _.
  destruct (ceil_bounds (List.length samples) m ltac:(lia)) as [Hc Hlt]. set (q := ((List.length samples + m - 1) / m)%nat) in *.
  assert (Q : forall n c, nth_error (map (chunk_list d samples pre m) (seq 0 q)) n = Some c -> (n < q)%nat /\ c = chunk_list d samples pre m n).
  { intros n c Hn. assert (Ln : (n < q)%nat) by (rewrite <- (seq_length q 0), <- (map_length (chunk_list d samples pre m)); apply nth_error_Some; congruence).
    split; [exact Ln|]. rewrite nth_error_map, (nth_error_nth' _ 0%nat) in Hn by (rewrite seq_length; exact Ln). rewrite seq_nth in Hn by exact Ln. injection Hn as <-. reflexivity. }
  rewrite map_length, seq_length. split; [|split; [|split]].
  - assert (0 < q)%nat by nia. specialize (Hlt (q - 1)%nat ltac:(lia)). nia.
  - intros n c Hn. apply Q in Hn as [Ln ->]. unfold chunk_list. rewrite map_length, seq_length, slice_length. pose proof (Hlt n Ln). split; [lia|]. intros Hs. specialize (Hlt (S n) Hs). nia.
  - intros n c i x Hn Hi. apply Q in Hn as [Ln ->]. unfold chunk_list in Hi. rewrite nth_error_map in Hi. destruct (nth_error (seq 0 _) i) as [i'|] eqn:Ei; [|discriminate].
    assert (i' = i) as ->. { assert (i < List.length (seq 0 (List.length (slice m n samples))))%nat by (apply nth_error_Some; congruence). rewrite (nth_error_nth' _ 0%nat) in Ei by assumption. rewrite seq_length in *. rewrite seq_nth in Ei by assumption. injection Ei as <-. reflexivity. }
    injection Hi as <-. rewrite sets_of. reflexivity.
  - rewrite concat_map, map_map. apply NoDup_blocks; [apply seq_NoDup | |].
    + intros n. unfold chunk_list. rewrite map_map. erewrite map_ext; [|intros i; rewrite sets_of; cbn [cf_index]; reflexivity].
      apply FinFun.Injective_map_NoDup; [|apply seq_NoDup]. intros i i' Hi. injection Hi as Hi. apply (chunk_index_inj pre n i n i'), Hi.
    + intros n n' x Hx Hx'. unfold chunk_list in Hx, Hx'. rewrite map_map in Hx, Hx'. apply in_map_iff in Hx as (i & Hi & _). apply in_map_iff in Hx' as (i' & Hi' & _).
      rewrite sets_of in Hi, Hi'. cbn [cf_index] in Hi, Hi'. rewrite <- Hi' in Hi. injection Hi as Hi. destruct (chunk_index_inj pre n i n' i'); [exact Hi || (symmetry; exact Hi) | congruence].
Qed.
(** The flat list. *)
Lemma c65_flat d points samples mx fname pre : draw d points = Ok samples -> (forall s, In s samples -> full d s) ->
  (forall m, mx = Some m -> (Z.of_nat (List.length samples) < m)%Z) ->
  exists flat, make_config_lists as_float d points (List.length samples) fname pre mx =
    Ok (Flat flat, match fname with Some f => [(f, flat)] | None => [] end) /\
  List.length flat = List.length samples /\
  (forall i s, nth_error samples i = Some s -> nth_error flat i = Some (single_config as_float d s (pre ++ printed i)%string)) /\
  NoDup (map cf_index flat).
Proof.
  intros Hd H Hm. exists (map (fun i => single_config as_float d (nth i samples []) (pre ++ printed i)%string) (seq 0 (List.length samples))).
  split; [rewrite (flat_ok d points samples fname pre mx Hd H Hm); destruct fname; reflexivity|].
  rewrite map_length, seq_length. split; [reflexivity|]. split.
  - intros i s Hi. assert (Li : (i < List.length samples)%nat) by (apply nth_error_Some; congruence).
    rewrite nth_error_map, (nth_error_nth' _ 0%nat) by (rewrite seq_length; exact Li). rewrite seq_nth by exact Li. cbn [option_map Nat.add]. rewrite (nth_error_nth _ _ [] Hi). reflexivity.
  - rewrite map_map. erewrite map_ext; [|intros i; rewrite sets_of; cbn [cf_index]; reflexivity].
    apply FinFun.Injective_map_NoDup; [|apply seq_NoDup]. intros i i' Hi. injection Hi as Hi. apply sapp_cancel in Hi. apply printed_inj, Hi.
Qed.
(** Files. *)
Lemma c65_files d points samples m f pre : draw d points = Ok samples -> (forall s, In s samples -> full d s) -> (1 <= m <= List.length samples)%nat ->
  exists cs fs, make_config_lists as_float d points (List.length samples) (Some f) pre (Some (Z.of_nat m)) = Ok (Chunks cs, fs) /\
    map snd fs = cs /\ (occurs ".json" f -> NoDup (map fst fs)) /\ (~ occurs ".json" f -> forall name c, In (name, c) fs -> name = f).
Proof.
  intros Hd H Hm. do 2 eexists. split; [apply (chunks_ok d points samples m); assumption|]. set (cs := map (chunk_list d samples pre m) _). clearbody cs.
  assert (E : forall ns (l : list (list config)), List.length ns = List.length l ->
    flat_map named (combine (map (chunk_file (Some f)) ns) l) = combine (map (fun n => replace ".json" ("chunk_" ++ str_of n ++ ".json")%string f) ns) l).
  { induction ns as [|n r IH]; intros [|x l] L; [reflexivity | reflexivity | discriminate|]. cbn [map combine flat_map]. rewrite IH by (cbn in L; lia). reflexivity. }
  rewrite E by apply seq_length. split; [|split].
  - generalize 0%nat. induction cs as [|c r IH]; intros n; [reflexivity|]. cbn [List.length seq map combine snd]. f_equal. apply IH.
  - intros O. rewrite combine_fst by (rewrite map_length, seq_length; lia). apply FinFun.Injective_map_NoDup; [|apply seq_NoDup].
    intros n n' Hn. apply (chunk_file_inj f n n' O). cbn [chunk_file]. rewrite Hn. reflexivity.
  - intros O name c Hin. apply in_combine_l in Hin. apply in_map_iff in Hin as (n & <- & _). pose proof (chunk_file_same f n O) as Q. unfold chunk_file in Q. apply (f_equal (fun o => match o with Some x => x | None => ""%string end)) in Q. exact Q.
Qed.
Lemma c65_bad_size d points samples n fname pre m : draw d points = Ok samples -> (m <= 0)%Z ->
  make_config_lists as_float d points n fname pre (Some m) = if (m =? 0)%Z then Err ZeroDivisionError else Ok (Chunks [], []).
Proof.
  intros Hd Hm. unfold make_config_lists. rewrite Hd. cbn [rbind]. destruct (Z.ltb_spec (Z.of_nat n) m); [lia|].
  destruct (Z.eqb_spec m 0); [reflexivity|]. destruct (Z.ltb_spec m 0); [reflexivity | lia].
Qed.
End C.
