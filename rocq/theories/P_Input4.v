(** * P_Input4: forcing tables (C57) *)
From Coq Require Import Reals Lra Lia Permutation.
From Verif Require Import PyBase PyBaseFacts Num M_Utils M_Gas M_Input Spec_Input P_Input.
Local Open Scope R_scope.

Lemma nsum_cons (x : R) l : nsum (x :: l) = x + nsum l.
Proof.
  unfold nsum. rnum. cbn [fold_left]. enough (forall l a, fold_left Rplus l a = a + fold_left Rplus l 0) as X by (rewrite (X l (0 + x)); lra).
  clear. induction l as [|y l IH]; intros a; cbn [fold_left]; [lra|]. rewrite (IH (a + y)), (IH (0 + y)). lra.
Qed.
Lemma nsum_nil : nsum (@nil R) = 0. Proof. reflexivity. Qed.
Lemma nsum_perm (l l' : list R) : Permutation l l' -> nsum l = nsum l'.
Proof. induction 1; rewrite ?nsum_cons; lra. Qed.
Lemma nan_sum_cons (o : option R) l : nan_sum (o :: l) = match o with Some x => x | None => 0 end + nan_sum l.
Proof. unfold nan_sum. cbn [flat_map]. destruct o; cbn [app]; [apply nsum_cons | lra]. Qed.

Lemma nth_value (f : frame (option R)) c i :
  match (match dget (fr_cols f) c with Some l => nth i l None | None => None end) with Some x => x | None => 0 end = value f c i.
Proof.
  unfold value. destruct (dget (fr_cols f) c) as [l|]; [|reflexivity].
  destruct (nth_error l i) as [o|] eqn:N; [apply nth_error_nth with (d := None) in N; rewrite N; destruct o; reflexivity|].
  apply nth_error_None in N. now rewrite nth_overflow.
Qed.
Lemma row_sum_eq f cols i : nan_sum (row_cells f cols i) = nsum (map (fun c => value f c i) cols).
Proof.
  unfold row_cells. induction cols as [|c cols IH]; [reflexivity|]. cbn [map]. rewrite nan_sum_cons, nsum_cons, IH, nth_value. reflexivity.
Qed.
Lemma row_abs_eq f cols i : row_abs_sum f cols i = nsum (map (fun c => nabs (value f c i)) cols).
Proof.
  unfold row_abs_sum, row_cells. induction cols as [|c cols IH]; [reflexivity|]. cbn [map]. rewrite nan_sum_cons, nsum_cons, IH. f_equal.
  rewrite <- nth_value. destruct (match dget (fr_cols f) c with Some l => nth i l None | None => None end); cbn; [reflexivity|]. rnum. symmetry. apply Rabs_R0.
Qed.

(** columns *)
Lemma prefix2 a b c : String.prefix (String a (String b "")) c = String.eqb (substring 0 2 c) (String a (String b "")).
Proof.
  destruct (String.prefix (String a (String b "")) c) eqn:P.
  - symmetry. apply String.eqb_eq. exact (proj1 (prefix_correct _ _) P).
  - symmetry. apply String.eqb_neq. intros E. apply (proj2 (prefix_correct (String a (String b "")) c)) in E. congruence.
Qed.
Lemma regional c : smem (substring 0 2 c) ["SO"; "BC"; "OC"; "BM"] = existsb (fun p => String.prefix p c) ["SO"; "BC"; "OC"; "BM"].
Proof. unfold smem. cbn [existsb]. rewrite !prefix2. reflexivity. Qed.
Lemma tracers_nodup : NoDup AEROSOL_TRACERS. Proof. now apply nodupb_NoDup. Qed.
Lemma aero_perm cols : NoDup cols -> Permutation (aero_cols cols) (filter aerosol_column cols).
Proof.
  intros ND. unfold aero_cols. set (a := filter (fun c => smem c cols) AEROSOL_TRACERS).
  apply NoDup_Permutation.
  - assert (NoDup a) as Na by (apply NoDup_filter, tracers_nodup).
    assert (NoDup (filter (fun c => smem (substring 0 2 c) ["SO"; "BC"; "OC"; "BM"] && negb (smem c a)) cols)) as Nb by (now apply NoDup_filter).
    revert Na Nb. set (b := filter _ cols). assert (forall x, In x a -> ~ In x b) as DJ.
    { intros x I X. apply filter_In in X as [_ X]. apply andb_prop in X as [_ X]. apply Bool.negb_true_iff in X. apply smem_In in I. congruence. }
    clearbody a b. intros Na Nb. induction a as [|x a IH]; [exact Nb|]. inversion Na; subst. cbn. constructor.
    + rewrite in_app_iff. intros [I|I]; [contradiction | exact (DJ x (or_introl eq_refl) I)].
    + apply IH; [intros y I; apply DJ; now right | assumption].
  - now apply NoDup_filter.
  - intros c. assert (In c a <-> In c AEROSOL_TRACERS /\ smem c cols = true) as IA by (unfold a; apply filter_In).
    rewrite in_app_iff, IA, !filter_In. unfold aerosol_column. rewrite <- regional. fold AEROSOL_TRACERS. split.
    + intros [[I1 I2]|[I1 I2]].
      * apply smem_In in I2. split; [exact I2|]. apply Bool.orb_true_iff. left. now apply smem_In.
      * split; [exact I1|]. apply andb_prop in I2 as [I2 _]. now rewrite I2, Bool.orb_true_r.
    + intros [I1 I2]. apply Bool.orb_true_iff in I2 as [I2|I2].
      * left. split; [now apply smem_In | now apply smem_In].
      * destruct (smem c a) eqn:SA.
        -- left. apply smem_In in SA. now apply IA.
        -- right. split; [exact I1|]. now rewrite I2.
Qed.
Definition total3 : list string := ["total"; "FORC_NH"; "FORC_SH"].
Lemma three_not_aerosol c : In c total3 -> aerosol_column c = false /\ agent_column c = false.
Proof. intros I. repeat (destruct I as [<-|I]; [split; reflexivity|]). destruct I. Qed.
Lemma aerosol_agent c : aerosol_column c = true -> agent_column c = true.
Proof.
  intros A. destruct (agent_column c) eqn:G; [reflexivity|]. unfold agent_column in G. apply Bool.negb_false_iff, smem_In in G.
  destruct (three_not_aerosol c G). congruence.
Qed.

(** the table with totals *)
Definition row_total (f : frame (option R)) (i : nat) : R := nsum (map (fun c => value f c i) (dkeys (fr_cols f))).
Definition rows {B} (f : frame B) : list nat := seq 0 (List.length (fr_index f)).
Definition total_column (f : frame (option R)) : list (option R) := map (fun i => Some (row_total f i)) (rows f).
Lemma add_total_get f : fr_index (add_total f) = fr_index f /\ forall c, dget (fr_cols (add_total f)) c =
  if dmem (fr_cols f) "total" then dget (fr_cols f) c
  else if dmem (fr_cols f) "FORC_NH" && dmem (fr_cols f) "FORC_SH"
  then if String.eqb c "total" then Some (map (fun _ => None) (fr_index f)) else dget (fr_cols f) c
  else if smem c total3 then Some (total_column f) else dget (fr_cols f) c.
Proof.
  unfold add_total. destruct (dmem (fr_cols f) "total"); [split; reflexivity|]. destruct (dmem (fr_cols f) "FORC_NH" && dmem (fr_cols f) "FORC_SH").
  - split; [reflexivity|]. intros c. cbn [fr_set fr_cols]. rewrite dget_dset, eqb_sym_s. reflexivity.
  - split; [reflexivity|]. intros c. cbn [fr_set fr_cols]. 
    assert (row_sums f (dkeys (fr_cols f)) = total_column f) as -> by (unfold row_sums, total_column, row_total; apply map_ext; intros i; now rewrite row_sum_eq).
    rewrite !dget_dset, !(eqb_sym_s _ c). unfold smem, total3. cbn [existsb].
    destruct (String.eqb c "FORC_SH"), (String.eqb c "FORC_NH"), (String.eqb c "total"); reflexivity.
Qed.
Lemma add_total_other f c : ~ In c total3 -> dget (fr_cols (add_total f)) c = dget (fr_cols f) c.
Proof.
  intros NI. rewrite (proj2 (add_total_get f)). assert (smem c total3 = false) as -> by (destruct (smem c total3) eqn:S; [apply smem_In in S; contradiction | reflexivity]).
  assert (String.eqb c "total" = false) as -> by (apply String.eqb_neq; intros ->; apply NI; now left).
  destruct (dmem (fr_cols f) "total"), (dmem (fr_cols f) "FORC_NH" && dmem (fr_cols f) "FORC_SH"); reflexivity.
Qed.
Lemma add_total_wf f : wf (fr_cols f) -> wf (fr_cols (add_total f)).
Proof. intros W. unfold add_total. destruct (dmem (fr_cols f) "total"); [exact W|]. destruct (_ && _); cbn [fr_set fr_cols]; repeat apply wf_dset; exact W. Qed.
Lemma total_kind f kind : wf (fr_cols f) -> (forall c, In c total3 -> kind c = false) ->
  Permutation (filter kind (dkeys (fr_cols (add_total f)))) (filter kind (dkeys (fr_cols f))).
Proof.
  intros W K. apply NoDup_Permutation; [apply NoDup_filter, add_total_wf, W | apply NoDup_filter, W |].
  intros c. rewrite !filter_In, <- !dget_In_keys. unfold dmem. split; intros [I1 I2]; (split; [|exact I2]).
  - rewrite add_total_other in I1; [exact I1 | intros X; rewrite (K c X) in I2; discriminate].
  - rewrite add_total_other; [exact I1 | intros X; rewrite (K c X) in I2; discriminate].
Qed.
Lemma total_value f kind c i : (forall c, In c total3 -> kind c = false) -> kind c = true -> value (add_total f) c i = value f c i.
Proof. intros K E. unfold value. rewrite add_total_other; [reflexivity | intros X; rewrite (K c X) in E; discriminate]. Qed.
Lemma mag_total f kind i : wf (fr_cols f) -> (forall c, In c total3 -> kind c = false) -> magnitude (add_total f) kind i = magnitude f kind i.
Proof.
  intros W K. unfold magnitude. rewrite (nsum_perm _ _ (Permutation_map _ (total_kind f kind W K))). f_equal. apply map_ext_in. intros c I.
  apply filter_In in I as [_ I]. now rewrite (total_value f kind c i K I).
Qed.

(** the weight *)
Definition weight (f : frame (option R)) (i : nat) : R :=
  if nltb 0 (magnitude f agent_column i) then magnitude f aerosol_column i / magnitude f agent_column i else 0.
Definition has_aerosol {B} (f : frame B) : bool := existsb aerosol_column (dkeys (fr_cols f)).
Lemma aero_nil cols : NoDup cols -> existsb aerosol_column cols = false -> aero_cols cols = [].
Proof.
  intros ND E. pose proof (aero_perm cols ND) as P. assert (filter aerosol_column cols = []) as F.
  { clear -E. induction cols as [|c cols IH]; [reflexivity|]. cbn in *. apply Bool.orb_false_iff in E as [E1 E2]. rewrite E1. now apply IH. }
  rewrite F in P. apply Permutation_sym, Permutation_nil in P. exact P.
Qed.
Lemma aero_not_nil cols : NoDup cols -> existsb aerosol_column cols = true -> aero_cols cols <> [] /\ agent_cols cols <> [].
Proof.
  intros ND E. apply existsb_exists in E as (c & I & A). split; intros X.
  - assert (In c []) as []. rewrite <- X. apply (Permutation_in _ (Permutation_sym (aero_perm cols ND))). now apply filter_In.
  - assert (In c []) as []. rewrite <- X. unfold agent_cols. apply filter_In. split; [exact I|]. exact (aerosol_agent c A).
Qed.
Lemma add_weight_get f : wf (fr_cols f) -> fr_index (add_weight f) = fr_index f /\ forall c, dget (fr_cols (add_weight f)) c =
  if String.eqb c "w_aero" && negb (dmem (fr_cols f) "w_aero") && has_aerosol f then Some (map (fun i => Some (weight f i)) (rows f)) else dget (fr_cols f) c.
Proof.
  intros W. unfold add_weight. destruct (dmem (fr_cols f) "w_aero"); [split; [reflexivity|]; intros c; now rewrite Bool.andb_false_r|]. cbn [negb]. cbv zeta.
  unfold has_aerosol. destruct (existsb aerosol_column (dkeys (fr_cols f))) eqn:HA.
  - destruct (aero_not_nil _ W HA) as [N1 N2].
    assert (forall X Y : frame (option R), match aero_cols (dkeys (fr_cols f)), agent_cols (dkeys (fr_cols f)) with [], _ | _, [] => X | _, _ => Y end = Y) as SEL.
    { intros X Y. destruct (aero_cols (dkeys (fr_cols f))); [contradiction|]. destruct (agent_cols (dkeys (fr_cols f))); [contradiction | reflexivity]. }
    assert (forall i, (if nltb #0%num (row_abs_sum f (agent_cols (dkeys (fr_cols f))) i)
       then Some (row_abs_sum f (aero_cols (dkeys (fr_cols f))) i / row_abs_sum f (agent_cols (dkeys (fr_cols f))) i) else Some 0) = Some (weight f i)) as WE.
    { intros i. unfold weight. rewrite !row_abs_eq. rewrite (nsum_perm _ _ (Permutation_map _ (aero_perm _ W))). fold (magnitude f aerosol_column i).
      change (agent_cols (dkeys (fr_cols f))) with (filter agent_column (dkeys (fr_cols f))). fold (magnitude f agent_column i). destruct (nltb _ _); reflexivity. }
    assert (add_weight f = fr_set f "w_aero" (map (fun i => Some (weight f i)) (rows f)) \/ True) as _ by now right.
    destruct (aero_cols (dkeys (fr_cols f))) as [|a0 al] eqn:EA; [contradiction|]. destruct (agent_cols (dkeys (fr_cols f))) as [|b0 bl] eqn:EB; [contradiction|].
    split; [reflexivity|]. intros c. cbn [fr_set fr_cols]. rewrite dget_dset, (eqb_sym_s _ c), !Bool.andb_true_r. destruct (String.eqb c "w_aero"); [|reflexivity].
    do 1 f_equal. apply map_ext. exact WE.
  - rewrite (aero_nil _ W HA). split; [reflexivity|]. intros c. now rewrite Bool.andb_false_r.
Qed.
Lemma weight_total f i : wf (fr_cols f) -> weight (add_total f) i = weight f i.
Proof. intros W. unfold weight. rewrite !mag_total; [reflexivity | exact W | | exact W | ]; intros c I; now apply three_not_aerosol. Qed.
Lemma has_total f : wf (fr_cols f) -> has_aerosol (add_total f) = has_aerosol f.
Proof.
  intros W. unfold has_aerosol.
  assert (forall l, existsb aerosol_column l = negb (match filter aerosol_column l with [] => true | _ => false end)) as E.
  { induction l as [|c l IH]; [reflexivity|]. cbn. destruct (aerosol_column c); [reflexivity | exact IH]. }
  rewrite !E. pose proof (total_kind f aerosol_column W (fun c I => proj1 (three_not_aerosol c I))) as P.
  destruct (filter aerosol_column (dkeys (fr_cols f))).
  - apply Permutation_sym, Permutation_nil in P. now rewrite P.
  - destruct (filter aerosol_column (dkeys (fr_cols (add_total f)))); [|reflexivity]. now apply Permutation_nil in P.
Qed.

(** the whole table *)
Definition table_column (f : frame (option R)) (c : string) : option (list (option R)) :=
  if String.eqb c "w_aero" && negb (dmem (fr_cols f) "w_aero") && has_aerosol f then Some (map (fun i => Some (weight f i)) (rows f))
  else if dmem (fr_cols f) "total" then dget (fr_cols f) c
  else if dmem (fr_cols f) "FORC_NH" && dmem (fr_cols f) "FORC_SH"
  then if String.eqb c "total" then Some (map (fun _ => None) (fr_index f)) else dget (fr_cols f) c
  else if smem c total3 then Some (total_column f) else dget (fr_cols f) c.
Lemma read_forc_get f : wf (fr_cols f) -> fr_index (read_forc_table f) = fr_index f /\ forall c, dget (fr_cols (read_forc_table f)) c = table_column f c.
Proof.
  intros W. destruct (add_weight_get (add_total f) (add_total_wf f W)) as [I G]. unfold read_forc_table. rewrite I. split; [apply add_total_get|].
  intros c. rewrite G. unfold table_column. unfold dmem at 1. rewrite add_total_other by (cbn; intros X; repeat (destruct X as [X|X]; [discriminate|]); destruct X).
  fold (dmem (fr_cols f) "w_aero"). rewrite has_total by exact W. unfold rows. rewrite (proj1 (add_total_get f)). rewrite (proj2 (add_total_get f)).
  destruct (String.eqb c "w_aero" && negb (dmem (fr_cols f) "w_aero") && has_aerosol f); [|reflexivity]. f_equal. apply map_ext. intros i. now rewrite weight_total.
Qed.

Lemma mag_nonneg f kind i : 0 <= magnitude f kind i.
Proof. unfold magnitude. induction (filter kind (dkeys (fr_cols f))) as [|c l IH]; cbn [map]; [rewrite nsum_nil; lra|]. rewrite nsum_cons. pose proof (Rabs_pos (value f c i)) as P. rnum. lra. Qed.
Lemma mag_le f i : magnitude f aerosol_column i <= magnitude f agent_column i.
Proof.
  unfold magnitude. induction (dkeys (fr_cols f)) as [|c l IH]; [cbn; lra|]. cbn [filter].
  pose proof (Rabs_pos (value f c i)) as P. destruct (aerosol_column c) eqn:A.
  - rewrite (aerosol_agent c A). cbn [map]. rewrite !nsum_cons. lra.
  - destruct (agent_column c); [|exact IH]. cbn [map]. rewrite nsum_cons. rnum. lra.
Qed.
Lemma weight_spec f i : 0 <= weight f i <= 1 /\ weight f i * magnitude f agent_column i = magnitude f aerosol_column i /\
  (magnitude f agent_column i = 0 -> weight f i = 0).
Proof.
  unfold weight. pose proof (mag_nonneg f agent_column i) as P. pose proof (mag_nonneg f aerosol_column i) as Q. pose proof (mag_le f i) as L.
  set (a := magnitude f aerosol_column i) in *. set (t := magnitude f agent_column i) in *. rnum.
  destruct (Rlt_dec 0 t) as [T|T].
  - split; [|split; [field; lra | lra]]. split; [apply Rmult_le_pos; [lra | apply Rlt_le, Rinv_0_lt_compat, T]|]. apply (Rmult_le_reg_r t); [exact T|]. field_simplify; lra.
  - split; [lra|]. split; [lra | reflexivity].
Qed.

(** order of columns *)
Lemma perm_get {V} (d d' : dict V) k : wf d -> Permutation d d' -> dget d k = dget d' k.
Proof.
  intros W P. assert (wf d') as W' by (unfold wf, dkeys; apply (Permutation_NoDup (Permutation_map fst P)), W).
  destruct (dget d k) as [v|] eqn:D.
  - symmetry. apply wf_In_dget; [exact W'|]. apply (Permutation_in _ P). now apply dget_Some_In.
  - symmetry. apply dget_None_keys. intros I. apply dget_None_keys in D. apply D. apply (Permutation_in _ (Permutation_sym (Permutation_map fst P))). exact I.
Qed.
Lemma filter_perm {B} (p : B -> bool) l l' : Permutation l l' -> Permutation (filter p l) (filter p l').
Proof.
  induction 1; cbn; [constructor | destruct (p x); [now constructor | assumption] | destruct (p x), (p y); try apply perm_swap; apply Permutation_refl | eapply Permutation_trans; eassumption].
Qed.
Lemma c57_order f f' : wf (fr_cols f) -> Permutation (fr_cols f) (fr_cols f') -> fr_index f = fr_index f' ->
  forall c, dget (fr_cols (read_forc_table f)) c = dget (fr_cols (read_forc_table f')) c.
Proof.
  intros W P I c. assert (wf (fr_cols f')) as W' by (unfold wf, dkeys; apply (Permutation_NoDup (Permutation_map fst P)), W).
  rewrite (proj2 (read_forc_get f W)), (proj2 (read_forc_get f' W')). unfold table_column.
  assert (forall k, dget (fr_cols f) k = dget (fr_cols f') k) as G by (intros k; now apply perm_get).
  assert (forall k, dmem (fr_cols f) k = dmem (fr_cols f') k) as M by (intros k; unfold dmem; now rewrite G).
  assert (forall c i, value f c i = value f' c i) as V by (intros; unfold value; now rewrite G).
  assert (Permutation (dkeys (fr_cols f)) (dkeys (fr_cols f'))) as PK by (now apply Permutation_map).
  assert (forall kind i, magnitude f kind i = magnitude f' kind i) as MG.
  { intros kind i. unfold magnitude. rewrite (nsum_perm _ _ (Permutation_map _ (filter_perm kind _ _ PK))). f_equal. apply map_ext. intros x. now rewrite V. }
  assert (has_aerosol f = has_aerosol f') as HA.
  { unfold has_aerosol. clear -PK. induction PK; cbn; try congruence. destruct (aerosol_column x), (aerosol_column y); reflexivity. }
  assert (total_column f = total_column f') as TC.
  { unfold total_column, rows. rewrite I. apply map_ext. intros i. f_equal. unfold row_total. rewrite (nsum_perm _ _ (Permutation_map _ PK)). f_equal. apply map_ext. intros x. apply V. }
  rewrite !M, G, HA, TC, I. unfold rows. rewrite I. 
  assert (map (fun i => Some (weight f i)) (seq 0 (List.length (fr_index f'))) = map (fun i => Some (weight f' i)) (seq 0 (List.length (fr_index f')))) as ->; [|reflexivity].
  apply map_ext. intros i. unfold weight. now rewrite !MG.
Qed.

(** statements *)
Lemma nth_error_rows {B} (g : nat -> B) n i : (i < n)%nat -> nth_error (map g (seq 0 n)) i = Some (g i).
Proof. intros L. rewrite nth_error_map. rewrite (nth_error_nth' _ 0%nat) by (rewrite seq_length; lia). now rewrite seq_nth by lia. Qed.
Lemma c57_row_sum f : wf (fr_cols f) -> dmem (fr_cols f) "total" = false -> dmem (fr_cols f) "FORC_NH" && dmem (fr_cols f) "FORC_SH" = false ->
  forall c, In c ["total"; "FORC_NH"; "FORC_SH"] -> exists col, dget (fr_cols (read_forc_table f)) c = Some col /\ List.length col = List.length (fr_index f) /\
    forall i, (i < List.length (fr_index f))%nat -> nth_error col i = Some (Some (nsum (map (fun k => value f k i) (dkeys (fr_cols f))))).
Proof.
  intros W T B c I. exists (total_column f). rewrite (proj2 (read_forc_get f W)). unfold table_column. rewrite T, B.
  assert (String.eqb c "w_aero" = false) as -> by (apply String.eqb_neq; intros ->; cbn in I; repeat (destruct I as [I|I]; [discriminate|]); destruct I). cbn [andb].
  rewrite (proj2 (smem_In c total3) I). split; [reflexivity|]. unfold total_column, rows. rewrite map_length, seq_length. split; [reflexivity|]. intros i L. now rewrite nth_error_rows.
Qed.
Lemma c57_hemispheres f : wf (fr_cols f) -> dmem (fr_cols f) "total" = false -> dmem (fr_cols f) "FORC_NH" = true -> dmem (fr_cols f) "FORC_SH" = true ->
  dget (fr_cols (read_forc_table f)) "total" = Some (map (fun _ => None) (fr_index f)) /\
  dget (fr_cols (read_forc_table f)) "FORC_NH" = dget (fr_cols f) "FORC_NH" /\ dget (fr_cols (read_forc_table f)) "FORC_SH" = dget (fr_cols f) "FORC_SH".
Proof. intros W T B1 B2. rewrite !(proj2 (read_forc_get f W)). unfold table_column. rewrite T, B1, B2. repeat split. Qed.
Lemma c57_kept f c : wf (fr_cols f) -> c <> "w_aero" -> dmem (fr_cols f) "total" = true \/ ~ In c ["total"; "FORC_NH"; "FORC_SH"] ->
  dget (fr_cols (read_forc_table f)) c = dget (fr_cols f) c.
Proof.
  intros W N H. rewrite (proj2 (read_forc_get f W)). unfold table_column. apply String.eqb_neq in N. rewrite N. cbn [andb].
  destruct (dmem (fr_cols f) "total"); [reflexivity|]. destruct H as [H|H]; [discriminate|].
  assert (smem c total3 = false) as -> by (destruct (smem c total3) eqn:S; [apply smem_In in S; contradiction | reflexivity]).
  assert (String.eqb c "total" = false) as -> by (apply String.eqb_neq; intros ->; apply H; now left). destruct (_ && _); reflexivity.
Qed.
Lemma c57_weight f : wf (fr_cols f) ->
  (dmem (fr_cols f) "w_aero" = true -> dget (fr_cols (read_forc_table f)) "w_aero" = dget (fr_cols f) "w_aero") /\
  (dmem (fr_cols f) "w_aero" = false -> (forall c, In c (dkeys (fr_cols f)) -> aerosol_column c = false) -> dget (fr_cols (read_forc_table f)) "w_aero" = None) /\
  (dmem (fr_cols f) "w_aero" = false -> (exists c, In c (dkeys (fr_cols f)) /\ aerosol_column c = true) ->
     exists col, dget (fr_cols (read_forc_table f)) "w_aero" = Some col /\ List.length col = List.length (fr_index f) /\
     forall i, (i < List.length (fr_index f))%nat -> exists w, nth_error col i = Some (Some w) /\ 0 <= w <= 1 /\
       w * magnitude f agent_column i = magnitude f aerosol_column i /\ (magnitude f agent_column i = 0 -> w = 0)).
Proof.
  intros W. rewrite !(proj2 (read_forc_get f W)). unfold table_column. eqbs. change (smem "w_aero" total3) with false. cbn [andb]. unfold has_aerosol.
  split; [intros ->; cbn [negb andb]; destruct (dmem (fr_cols f) "total"), (dmem (fr_cols f) "FORC_NH" && dmem (fr_cols f) "FORC_SH"); reflexivity|]. split.
  - intros M NA. rewrite M. assert (existsb aerosol_column (dkeys (fr_cols f)) = false) as ->.
    { destruct (existsb aerosol_column (dkeys (fr_cols f))) eqn:E; [|reflexivity]. apply existsb_exists in E as (c & I & A). rewrite (NA c I) in A. discriminate. }
    cbn [negb andb]. apply dmem_false in M. rewrite M. destruct (dmem (fr_cols f) "total"), (dmem (fr_cols f) "FORC_NH" && dmem (fr_cols f) "FORC_SH"); reflexivity.
  - intros M (c & I & A). rewrite M. assert (existsb aerosol_column (dkeys (fr_cols f)) = true) as -> by (apply existsb_exists; exists c; split; assumption). cbn [negb andb].
    eexists. split; [reflexivity|]. unfold rows. rewrite map_length, seq_length. split; [reflexivity|]. intros i L. exists (weight f i). rewrite nth_error_rows by exact L. split; [reflexivity|]. apply weight_spec.
Qed.
