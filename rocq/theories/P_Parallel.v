From Coq Require Import Permutation.
From Verif Require Import PyBase PyBaseFacts Num M_Gas M_Parallel Spec_Parallel.
Local Arguments Nat.div : simpl never.
Local Arguments Nat.sub : simpl never.

(** ** slices *)
Lemma concat_slices {B} (b : nat) (n : nat) : forall (l : list B), (0 < b)%nat -> (List.length l <= n * b)%nat ->
  List.concat (map (fun k => firstn b (skipn (k * b) l)) (seq 0 n)) = l.
Proof.
  induction n as [|n IH]; intros l Hb Hl.
  - destruct l; [reflexivity | simpl in Hl; lia].
  - cbn [seq map List.concat]. rewrite Nat.mul_0_l. cbn [skipn].
    rewrite <- seq_shift, map_map.
    rewrite (map_ext _ (fun k => firstn b (skipn (k * b) (skipn b l)))).
    + rewrite IH; [apply firstn_skipn | exact Hb | rewrite skipn_length; lia].
    + intros k. f_equal. cbn [Nat.mul]. clear. revert l. induction b as [|b IH2]; [reflexivity|].
      intros l. destruct l as [|x l]; [now rewrite !skipn_nil|]. cbn [Nat.add skipn].
      (* general composition *)
      clear IH2. generalize (k * S b)%nat. intros m. revert l. induction b as [|b IH]; intros l; [reflexivity|].
      destruct l; [now rewrite !skipn_nil|]. cbn [Nat.add skipn]. apply IH.
Qed.

Lemma batches_ok {C} (cfgs : list C) b : (0 < b)%nat -> exists bs, batches cfgs b = Ok bs /\
  List.concat bs = cfgs /\ List.length bs = ((List.length cfgs + b - 1) / b)%nat /\
  (forall x, In x bs -> (1 <= List.length x <= b)%nat).
Proof.
  intros Hb. unfold batches. destruct (Nat.eqb_spec b 0) as [->|_]; [lia|].
  eexists; split; [reflexivity|]. set (n := ((List.length cfgs + b - 1) / b)%nat).
  assert (Hn : (List.length cfgs <= n * b)%nat).
  { unfold n. pose proof (Nat.div_mod (List.length cfgs + b - 1) b ltac:(lia)) as D.
    pose proof (Nat.mod_upper_bound (List.length cfgs + b - 1) b ltac:(lia)). lia. }
  assert (Hn2 : forall k, (k < n)%nat -> (k * b < List.length cfgs)%nat).
  { intros k Hk. unfold n in Hk.
    assert (S k * b <= List.length cfgs + b - 1)%nat; [|lia].
    pose proof (Nat.div_mod (List.length cfgs + b - 1) b ltac:(lia)) as D.
    pose proof (Nat.mod_upper_bound (List.length cfgs + b - 1) b ltac:(lia)). nia. }
  split; [apply concat_slices; assumption|]. split; [rewrite map_length, seq_length; reflexivity|].
  intros x Hx. apply in_map_iff in Hx. destruct Hx as [k [<- Hk]]. apply in_seq in Hk.
  rewrite firstn_length, skipn_length. specialize (Hn2 k ltac:(lia)). lia.
Qed.

Lemma flat_map_pairs {S C} (scens : list S) (bs : list (list C)) vars :
  handed_out (flat_map (fun scen => map (fun cfgset => {| j_cfgs := cfgset; j_vars := vars; j_scen := scen |}) bs) scens)
  = list_prod scens (List.concat bs).
Proof.
  unfold handed_out. induction scens as [|s r IH]; [reflexivity|]. cbn [flat_map list_prod].
  rewrite flat_map_app, IH. f_equal. clear. induction bs as [|b bs IH]; [reflexivity|].
  cbn [map flat_map List.concat j_scen j_cfgs]. rewrite IH, map_app. reflexivity.
Qed.

Lemma c62 {S C} (scens : list S) (cfgs : list C) vars mw : exists jobs, work_list scens cfgs vars mw = Ok jobs /\
  handed_out jobs = list_prod scens cfgs /\ (forall j, In j jobs -> j_vars j = vars).
Proof.
  unfold work_list. cbv zeta. destruct (orb _ _) eqn:E.
  - eexists; split; [reflexivity|]. split.
    + unfold handed_out. clear. induction scens as [|s r IH]; [reflexivity|]. cbn [map flat_map list_prod j_scen j_cfgs].
      rewrite IH. reflexivity.
    + intros j Hj. apply in_map_iff in Hj. destruct Hj as [s [<- _]]. reflexivity.
  - apply orb_false_iff in E. destruct E as [E1 E2]. apply Z.leb_gt in E1. apply Z.ltb_ge in E2.
    set (b := Z.to_nat _).
    assert (Hb : (0 < b)%nat).
    { unfold b. apply Nat2Z.inj_lt. rewrite Z2Nat.id.
      - change (Z.of_nat 0) with 0%Z. apply Z.div_str_pos. lia.
      - apply Z.div_pos; lia. }
    destruct (batches_ok cfgs b Hb) as (bs & -> & Hc & _ & _). cbn [rbind].
    eexists; split; [reflexivity|]. split; [rewrite flat_map_pairs, Hc; reflexivity|].
    intros j Hj. apply in_flat_map in Hj. destruct Hj as [s [_ Hj]]. apply in_map_iff in Hj. destruct Hj as [x [<- _]]. reflexivity.
Qed.

Lemma flat_map_len {B C} (f : B -> list C) n l : (forall x, In x l -> List.length (f x) = n) ->
  List.length (flat_map f l) = (List.length l * n)%nat.
Proof.
  induction l as [|x r IH]; intros H; [reflexivity|]. cbn [flat_map]. rewrite app_length, IH, H; [reflexivity | left; reflexivity | intros y Hy; apply H; right; exact Hy].
Qed.

(** Number and size of the jobs. *)
Lemma c62_sizes {S C} (scens : list S) (cfgs : list C) vars mw jobs : work_list scens cfgs vars mw = Ok jobs ->
  let ns := List.length scens in let nc := List.length cfgs in
  ((mw <= Z.of_nat ns \/ Z.of_nat (nc * ns) < mw)%Z ->
     List.length jobs = ns /\ forall j, In j jobs -> j_cfgs j = cfgs) /\
  ((Z.of_nat ns < mw <= Z.of_nat (nc * ns))%Z ->
     (mw <= Z.of_nat (List.length jobs))%Z /\
     forall j, In j jobs -> (1 <= List.length (j_cfgs j))%nat /\ (Z.of_nat (List.length (j_cfgs j)) * mw <= Z.of_nat (nc * ns))%Z).
Proof.
  unfold work_list. cbv zeta. set (ns := List.length scens). set (nc := List.length cfgs). intros H. split; intros Hm.
  - replace ((mw <=? Z.of_nat ns)%Z || (Z.of_nat nc * Z.of_nat ns <? mw)%Z)%bool with true in H.
    + injection H as <-. split; [apply map_length|]. intros j Hj. apply in_map_iff in Hj. destruct Hj as [s [<- _]]. reflexivity.
    + symmetry. apply orb_true_iff. rewrite Z.leb_le, Z.ltb_lt. lia.
  - replace ((mw <=? Z.of_nat ns)%Z || (Z.of_nat nc * Z.of_nat ns <? mw)%Z)%bool with false in H
      by (symmetry; apply orb_false_iff; rewrite Z.leb_gt, Z.ltb_ge; lia).
    set (q := (Z.of_nat nc * Z.of_nat ns / mw)%Z) in H.
    assert (Q1 : (1 <= q)%Z) by (unfold q; apply Z.div_le_lower_bound; lia).
    assert (Q2 : (q * mw <= Z.of_nat nc * Z.of_nat ns)%Z) by (unfold q; rewrite Z.mul_comm; apply Z.mul_div_le; lia).
    destruct (batches_ok cfgs (Z.to_nat q) ltac:(lia)) as (bs & Eb & Hc & Hl & Hs). rewrite Eb in H. cbn [rbind] in H.
    injection H as <-. split.
    + rewrite (flat_map_len _ (List.length bs)) by (intros; apply map_length). fold ns.
      assert (Hn : (nc <= List.length bs * Z.to_nat q)%nat).
      { rewrite Hl. fold nc. pose proof (Nat.div_mod (nc + Z.to_nat q - 1) (Z.to_nat q) ltac:(lia)) as D.
        pose proof (Nat.mod_upper_bound (nc + Z.to_nat q - 1) (Z.to_nat q) ltac:(lia)). lia. }
      assert (Hz : (Z.of_nat nc <= Z.of_nat (List.length bs) * q)%Z) by nia.
      rewrite Nat2Z.inj_mul. nia.
    + intros j Hj. apply in_flat_map in Hj. destruct Hj as [s [_ Hj]]. apply in_map_iff in Hj. destruct Hj as [x [<- Hx]].
      cbn [j_cfgs]. specialize (Hs x Hx). split; [lia|].
      assert (Z.of_nat (List.length x) <= q)%Z by lia. nia.
Qed.

(** ** C63 *)
Section Process.
Context {C R : Type} (func : bool -> C -> result R).

Lemma mapM_ok {B D} (f : B -> result D) (g : B -> D) l : (forall x, In x l -> f x = Ok (g x)) -> mapM f l = Ok (map g l).
Proof.
  induction l as [|x r IH]; intros H; [reflexivity|]. cbn [mapM map]. rewrite (H x (or_introl eq_refl)). cbn [rbind].
  rewrite IH by (intros y Hy; apply H; right; exact Hy). reflexivity.
Qed.
Lemma mapM_err {B D} (f : B -> result D) l : (exists x e, In x l /\ f x = Err e) ->
  exists x e, In x l /\ f x = Err e /\ mapM f l = Err e.
Proof.
  induction l as [|x r IH]; intros (y & e & Hy & He); [destruct Hy|]. cbn [mapM].
  destruct (f x) as [v|e0] eqn:F.
  - destruct Hy as [->|Hy]; [congruence|]. destruct IH as (z & e1 & Hz & Fz & Mz); [eauto|].
    exists z, e1. split; [right; exact Hz|]. split; [exact Fz|]. cbn [rbind]. rewrite Mz. reflexivity.
  - exists x, e0. split; [left; reflexivity|]. split; [exact F | reflexivity].
Qed.

Lemma await_ok (fs : list (result R)) order : (forall f, In f fs -> exists r, f = Ok r) -> await fs order = Ok tt.
Proof.
  intros H. induction order as [|i r IH]; [reflexivity|]. cbn [await]. destruct (nth_error fs i) eqn:E; [|exact IH].
  apply nth_error_In in E. destruct (H _ E) as [x ->]. exact IH.
Qed.
Lemma await_err (fs : list (result R)) order : (exists i e, In i order /\ nth_error fs i = Some (Err e)) ->
  exists i e, In i order /\ nth_error fs i = Some (Err e) /\ await fs order = Err e.
Proof.
  induction order as [|i r IH]; intros (j & e & Hj & Ej); [destruct Hj|]. cbn [await].
  destruct (nth_error fs i) as [[v|e0]|] eqn:E.
  - destruct Hj as [->|Hj]; [congruence|]. destruct IH as (k & e1 & Hk & Ek & Ak); [eauto|].
    exists k, e1. simpl; auto.
  - exists i, e0. simpl; auto.
  - destruct Hj as [->|Hj]; [congruence|]. destruct IH as (k & e1 & Hk & Ek & Ak); [eauto|].
    exists k, e1. simpl; auto.
Qed.

Lemma run_parallel_ok kw order configs f : (forall c, In c configs -> func kw c = Ok (f c)) ->
  run_parallel func kw order configs = Ok (map (fun c => Value (f c)) configs).
Proof.
  intros H. unfold run_parallel. rewrite await_ok.
  - cbn [rbind]. f_equal. rewrite map_map. apply map_ext_in. intros c Hc. rewrite (H c Hc). reflexivity.
  - intros r Hr. apply in_map_iff in Hr. destruct Hr as [c [<- Hc]]. eauto.
Qed.
Lemma run_parallel_nil kw order : run_parallel func kw order [] = Ok [].
Proof.
  unfold run_parallel. rewrite await_ok; [reflexivity | intros f []].
Qed.
Lemma run_parallel_err kw order configs : schedule (List.length configs) order ->
  (exists c e, In c configs /\ func kw c = Err e) ->
  exists c e, In c configs /\ func kw c = Err e /\ run_parallel func kw order configs = Err e.
Proof.
  intros Hs (c & e & Hc & He). apply In_nth_error in Hc. destruct Hc as [i Hi].
  destruct (await_err (map (func kw) configs) order) as (j & e1 & Hj & Ej & Aj).
  - exists i, e. split.
    + apply (Permutation_in _ (Permutation_sym Hs)), in_seq. split; [lia|]. apply nth_error_Some. congruence.
    + rewrite nth_error_map, Hi. cbn [option_map]. rewrite He. reflexivity.
  - rewrite nth_error_map in Ej. destruct (nth_error configs j) as [cj|] eqn:Ec; [|discriminate]. cbn [option_map] in Ej.
    injection Ej as Ej. exists cj, e1. split; [exact (nth_error_In _ _ Ec)|]. split; [exact Ej|].
    unfold run_parallel. rewrite Aj. reflexivity.
Qed.

Lemma skipn_skipn' {B} (l : list B) n m : skipn m (skipn n l) = skipn (n + m) l.
Proof. revert l; induction n as [|n IH]; intros l; [reflexivity|]. destruct l; [now rewrite !skipn_nil|]. apply IH. Qed.

Lemma if_front {B} (n : nat) (P : result (list B)) : (n = 0%nat -> P = Ok []) ->
  (if (0 <? n)%nat then P else Ok []) = P.
Proof. intros H. destruct n; [symmetry; apply H; reflexivity | reflexivity]. Qed.

Lemma in_firstn {B} (x : B) n l : In x (firstn n l) -> In x l.
Proof. intros H. rewrite <- (firstn_skipn n l). apply in_or_app; left; exact H. Qed.
Lemma in_skipn {B} (x : B) n l : In x (skipn n l) -> In x l.
Proof. intros H. rewrite <- (firstn_skipn n l). apply in_or_app; right; exact H. Qed.

Lemma c63_order configs o1 o2 kw n m f : (forall c, In c configs -> func kw c = Ok (f c)) ->
  parallel_process func configs (Some (o1, o2)) kw n m = Ok (map (fun c => Value (f c)) configs).
Proof.
  intros H. unfold parallel_process, run_serial.
  rewrite if_front by (intros ->; reflexivity).
  rewrite (mapM_ok _ f) by (intros x Hx; apply H, (in_firstn _ _ _ Hx)). cbn [rbind].
  rewrite if_front.
  2:{ intros ->. rewrite (run_parallel_ok _ _ _ f); [reflexivity | intros c []]. }
  rewrite (run_parallel_ok _ _ _ f) by (intros x Hx; apply H, (in_skipn x n), (in_firstn _ _ _ Hx)). cbn [rbind].
  rewrite (run_parallel_ok _ _ _ f) by (intros x Hx; apply H, (in_skipn _ _ _ Hx)). cbn [rbind].
  f_equal. rewrite map_map, <- !map_app. f_equal. rewrite <- skipn_skipn', firstn_skipn, firstn_skipn. reflexivity.
Qed.

Lemma in_split3 (x : C) configs n m : In x configs ->
  In x (firstn n configs) \/ In x (firstn m (skipn n configs)) \/ In x (skipn (n + m) configs).
Proof.
  intros H. rewrite <- (firstn_skipn n configs) in H. apply in_app_or in H. destruct H as [H|H]; [left; exact H|].
  rewrite <- (firstn_skipn m (skipn n configs)) in H. apply in_app_or in H. rewrite skipn_skipn' in H. tauto.
Qed.

Lemma mapM_inv {B D} (f : B -> result D) l :
  match mapM f l with
  | Ok _ => forall x, In x l -> exists v, f x = Ok v
  | Err e => exists x, In x l /\ f x = Err e
  end.
Proof.
  induction l as [|x r IH]; [intros y []|]. cbn [mapM]. destruct (f x) as [v|e] eqn:F; cbn [rbind].
  - destruct (mapM f r); cbn [rbind].
    + intros y [<-|Hy]; [eauto | apply IH, Hy].
    + destruct IH as (y & Hy & Fy). exists y; simpl; auto.
  - exists x; simpl; auto.
Qed.
Lemma run_parallel_inv kw order configs : schedule (List.length configs) order ->
  match run_parallel func kw order configs with
  | Ok _ => forall c, In c configs -> exists v, func kw c = Ok v
  | Err e => exists c, In c configs /\ func kw c = Err e
  end.
Proof.
  intros Hs. destruct (run_parallel func kw order configs) as [l|e] eqn:E.
  - intros c Hc. destruct (func kw c) as [v|e] eqn:F; [eauto|].
    destruct (run_parallel_err kw order configs Hs) as (c1 & e1 & _ & _ & Q); [eauto|]. congruence.
  - unfold run_parallel in E. destruct (await (map (func kw) configs) order) eqn:A; [discriminate|]. cbn [rbind] in E.
    injection E as ->. clear Hs. induction order as [|i r IH]; [discriminate|]. cbn [await] in A.
    destruct (nth_error (map (func kw) configs) i) as [[v|e0]|] eqn:N; [apply IH, A | | apply IH, A].
    injection A as ->. rewrite nth_error_map in N. destruct (nth_error configs i) as [c|] eqn:Ec; [|discriminate].
    cbn [option_map] in N. injection N as N. exists c; split; [exact (nth_error_In _ _ Ec) | exact N].
Qed.

Lemma await_done (fs : list (result R)) order : await fs order = Ok tt -> forall i e, In i order -> nth_error fs i <> Some (Err e).
Proof.
  induction order as [|j r IH]; intros A i e I; [destruct I|]. cbn [await] in A. destruct I as [<-|I].
  - intros X. rewrite X in A. discriminate A.
  - apply IH; [|exact I]. destruct (nth_error fs j) as [[v|x]|]; [exact A|discriminate A|exact A].
Qed.
Lemma c63_collected kw order configs l : run_parallel func kw order configs = Ok l ->
  (forall i c, nth_error configs i = Some c ->
     match func kw c with Ok v => nth_error l i = Some (Value v) | Err e => nth_error l i = Some (Raised e) /\ ~ In i order end) /\
  (schedule (List.length configs) order -> forall e, ~ In (Raised e) l).
Proof.
  intros E. pose proof E as E0. unfold run_parallel in E. destruct (await (map (func kw) configs) order) as [[]|] eqn:AW; [|discriminate E]. cbn [rbind] in E.
  injection E as E. subst l. split.
  - intros i c Hc. rewrite !nth_error_map, Hc. cbn [option_map]. destruct (func kw c) as [v|e] eqn:F; cbn [collect]; [reflexivity|]. split; [reflexivity|].
    intros I. apply (await_done _ _ AW i e I). rewrite nth_error_map, Hc. cbn [option_map]. rewrite F. reflexivity.
  - intros S e I. apply in_map_iff in I. destruct I as (f & F & I). destruct f as [v|x]; [discriminate F|]. apply In_nth_error in I. destruct I as [i I].
    apply (await_done _ _ AW i x); [|exact I]. apply (Permutation_in _ (Permutation_sym S)), in_seq. split; [lia|].
    rewrite <- (map_length (func kw) configs). apply nth_error_Some. congruence.
Qed.

Lemma c63_failure configs o1 o2 kw n m :
  schedule (List.length (firstn m (skipn n configs))) o1 -> schedule (List.length (skipn (n + m) configs)) o2 ->
  (exists c e, In c configs /\ func kw c = Err e) ->
  exists c e, In c configs /\ func kw c = Err e /\ parallel_process func configs (Some (o1, o2)) kw n m = Err e.
Proof.
  intros H1 H2 (c & e & Hc & He). unfold parallel_process, run_serial.
  rewrite if_front by (intros ->; reflexivity).
  pose proof (mapM_inv (func kw) (firstn n configs)) as I1. destruct (mapM (func kw) (firstn n configs)) as [fs|e1]; cbn [rbind].
  2:{ destruct I1 as (x & Hx & Fx). exists x, e1. split; [exact (in_firstn _ _ _ Hx)|]. split; [exact Fx | reflexivity]. }
  rewrite if_front.
  2:{ intros ->. apply run_parallel_nil. }
  pose proof (run_parallel_inv kw o1 _ H1) as I2. destruct (run_parallel func kw o1 (firstn m (skipn n configs))) as [fp|e2]; cbn [rbind].
  2:{ destruct I2 as (x & Hx & Fx). exists x, e2. split; [exact (in_skipn _ _ _ (in_firstn _ _ _ Hx))|]. split; [exact Fx | reflexivity]. }
  pose proof (run_parallel_inv kw o2 _ H2) as I3. destruct (run_parallel func kw o2 (skipn (n + m) configs)) as [rs|e3]; cbn [rbind].
  2:{ destruct I3 as (x & Hx & Fx). exists x, e3. split; [exact (in_skipn _ _ _ Hx)|]. split; [exact Fx | reflexivity]. }
  exfalso. destruct (in_split3 c configs n m Hc) as [H|[H|H]].
  - destruct (I1 c H); congruence.
  - destruct (I2 c H); congruence.
  - destruct (I3 c H); congruence.
Qed.

(** Without front jobs, the exception is that of the first job to fail. *)
Lemma c63_first configs o1 before i after kw c e : nth_error configs i = Some c -> func kw c = Err e ->
  (forall j cj, In j before -> nth_error configs j = Some cj -> exists v, func kw cj = Ok v) ->
  parallel_process func configs (Some (o1, before ++ i :: after)) kw 0 0 = Err e.
Proof.
  intros Hi He Hb. unfold parallel_process. cbn [Nat.ltb Nat.leb rbind Nat.add skipn]. unfold run_parallel.
  replace (await (map (func kw) configs) (before ++ i :: after)) with (Err (A := unit) e); [reflexivity|].
  induction before as [|j r IH]; cbn [await app].
  - rewrite nth_error_map, Hi. cbn [option_map]. rewrite He. reflexivity.
  - rewrite nth_error_map. destruct (nth_error configs j) as [cj|] eqn:Ec; cbn [option_map].
    + destruct (Hb j cj (or_introl eq_refl) Ec) as [v ->]. apply IH. intros k ck Hk. apply Hb. right; exact Hk.
    + apply IH. intros k ck Hk. apply Hb. right; exact Hk.
Qed.

Lemma c63_serial configs kw n m f : (forall c, In c configs -> func kw c = Ok (f c)) ->
  parallel_process func configs None kw n m = Ok (map (fun c => Value (f c)) (skipn n configs ++ firstn n configs)).
Proof.
  intros H. unfold parallel_process, run_serial. rewrite if_front by (intros ->; reflexivity).
  rewrite (mapM_ok _ f) by (intros x Hx; apply H, (in_firstn _ _ _ Hx)). cbn [rbind].
  rewrite (mapM_ok _ f) by (intros x Hx; apply H, (in_skipn _ _ _ Hx)). cbn [rbind].
  rewrite <- map_app, map_map. reflexivity.
Qed.
Lemma c63_serial_failure configs kw n m : (exists c e, In c configs /\ func kw c = Err e) ->
  exists c e, In c configs /\ func kw c = Err e /\ parallel_process func configs None kw n m = Err e.
Proof.
  intros (c & e & Hc & He). unfold parallel_process, run_serial. rewrite if_front by (intros ->; reflexivity).
  pose proof (mapM_inv (func kw) (firstn n configs)) as I1. destruct (mapM (func kw) (firstn n configs)) as [fs|e1]; cbn [rbind].
  2:{ destruct I1 as (x & Hx & Fx). exists x, e1. split; [exact (in_firstn _ _ _ Hx)|]. split; [exact Fx | reflexivity]. }
  pose proof (mapM_inv (func kw) (skipn n configs)) as I2. destruct (mapM (func kw) (skipn n configs)) as [rs|e2]; cbn [rbind].
  2:{ destruct I2 as (x & Hx & Fx). exists x, e2. split; [exact (in_skipn _ _ _ Hx)|]. split; [exact Fx | reflexivity]. }
  exfalso. rewrite <- (firstn_skipn n configs) in Hc. apply in_app_or in Hc. destruct Hc as [H|H].
  - destruct (I1 c H); congruence.
  - destruct (I2 c H); congruence.
Qed.
End Process.
