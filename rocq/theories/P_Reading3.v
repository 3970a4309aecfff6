(** * P_Reading3: rows of other years do not matter (C104) *)
From Coq Require Import Lia Sorted.
From Verif Require Import PyBase PyBaseFacts Num M_Utils M_Pams M_Gas M_Driver M_Input M_Whole M_WholeBox M_Reading Spec_Pams Spec_Input Spec_Reading P_Pams P_Input P_Input2 P_Reading P_Reading2.

(** ** the selection looks at the gas table and the headers only *)
Section Selection.
Context {A : Type} (ex ex' : cval A -> bool) (gt gt' : datum A -> result (dict (gasrow A))) (hd hd' : cval A -> result (dict string)) (dir cwd : string).
Hypothesis EX : forall p, ex p = ex' p.
Hypothesis GR : forall p, gt (Read MComponents p) = gt' (Read MComponents p).
Hypothesis GG : forall v, gt (Given v) = gt' (Given v).
Hypothesis HD : forall p, hd p = hd' p.
Lemma gaspam_agree {B} (h : hcfg A) (f : dict (gasrow A) -> result B) :
  (do d <- get_data h "gaspam"; do g <- gt d; f g) = (do d <- get_data h "gaspam"; do g <- gt' d; f g).
Proof.
  unfold get_data. destruct (dget h ("gaspam" ++ "_file")) as [p|].
  - change (dget (read_methods (start_of h) (stop_of h)) "gaspam") with (Some MComponents). cbn [rbind]. now rewrite GR.
  - destruct (dget h ("gaspam" ++ "_data")) as [v|]; [|reflexivity]. cbn [rbind]. now rewrite GG.
Qed.
Lemma flat_agree h c : get_flat_natural_emissions gt h c = get_flat_natural_emissions gt' h c.
Proof. unfold get_flat_natural_emissions. apply gaspam_agree. Qed.
Lemma fill_agree h n c : fill_natural gt h n c = fill_natural gt' h n c.
Proof. unfold fill_natural. now rewrite flat_agree. Qed.
Lemma files_agree h : check_inputfiles ex cwd h = check_inputfiles ex' cwd h.
Proof. induction h as [|[k v] h IH]; [reflexivity|]. cbn [check_inputfiles]. now rewrite EX, IH. Qed.
Lemma units_agree h : check_gaspam gt hd h = check_gaspam gt' hd' h.
Proof.
  unfold check_gaspam. destruct (optional_pam h "gaspam"); [|reflexivity]. rewrite gaspam_agree. destruct (get_data h "gaspam") as [d|]; [|reflexivity]. cbn [rbind].
  destruct (gt' d) as [g|]; [|reflexivity]. cbn [rbind]. destruct (mapM _ no_emissions); [|reflexivity]. cbn [rbind].
  assert (forall g, check_emissions hd h g = check_emissions hd' h g) as -> by (intros; unfold check_emissions; destruct (dget h "emissions_file"); [now rewrite HD | reflexivity]).
  destruct (check_emissions hd' h _) as [go|]; [|reflexivity]. cbn [rbind]. destruct go; [|reflexivity].
  unfold check_concentrations. destruct (dget h "concentrations_file"); [now rewrite HD | reflexivity].
Qed.
Lemma init_agree cfg : input_init ex gt hd dir cwd cfg = input_init ex' gt' hd' dir cwd cfg.
Proof.
  unfold input_init. destruct (set_sun_volc_luc_defaults dir (initial_cfg cfg)) as [h1|]; [|reflexivity]. cbn [rbind]. rewrite fill_agree.
  destruct (fill_natural gt' h1 "nat_ch4" "CH4") as [h2|]; [|reflexivity]. cbn [rbind]. rewrite fill_agree.
  destruct (fill_natural gt' h2 "nat_n2o" "N2O") as [h3|]; [|reflexivity]. cbn [rbind]. rewrite files_agree.
  destruct (check_inputfiles ex' cwd h3) as [h4|]; [|reflexivity]. cbn [rbind]. now rewrite units_agree.
Qed.
End Selection.

(** ** the same rows *)
Lemma sorted_same {V} (l : list (Z * V)) : forall l', ascending (map fst l) -> ascending (map fst l') -> (forall x, In x l <-> In x l') -> l = l'.
Proof.
  unfold ascending. induction l as [|[y v] l IH]; intros l' S S' E.
  - destruct l' as [|x l']; [reflexivity|]. destruct (proj2 (E x)); now left.
  - destruct l' as [|[y' v'] l']; [destruct (proj1 (E (y, v))); now left|]. cbn in S, S'. inversion S as [|? ? T F]; subst. inversion S' as [|? ? T' F']; subst.
    rewrite Forall_forall in F, F'.
    assert ((y, v) = (y', v')) as P.
    { destruct (proj1 (E (y, v)) (or_introl eq_refl)) as [X|X]; [now symmetry|]. destruct (proj2 (E (y', v')) (or_introl eq_refl)) as [X'|X']; [exact X'|].
      apply (in_map fst) in X, X'. specialize (F _ X'). specialize (F' _ X). cbn in F, F'. lia. }
    injection P as <- <-. f_equal. apply IH; try assumption. intros x. split; intros I.
    + destruct (proj1 (E x) (or_intror I)) as [<-|X]; [|exact X]. apply (in_map fst) in I. specialize (F _ I). cbn in F. lia.
    + destruct (proj2 (E x) (or_intror I)) as [<-|X]; [|exact X]. apply (in_map fst) in I. specialize (F' _ I). cbn in F'. lia.
Qed.
Lemma ascending_filter {V} (P : Z * V -> bool) l : ascending (map fst l) -> ascending (map fst (filter P l)).
Proof.
  unfold ascending. induction l as [|x l IH]; intros S; [constructor|]. cbn in S. inversion S as [|? ? S' F]; subst. cbn [filter].
  destruct (P x); [cbn; constructor; [now apply IH|] | now apply IH].
  rewrite Forall_forall in *. intros y I. apply F. apply in_map_iff in I as (r & <- & I). apply filter_In in I as [I _]. now apply in_map.
Qed.
Lemma tidy_ok {A} (f : yearfile A) a b : tidy f -> covers f a b -> (a <= b)%Z ->
  read_inputfile true a b (yf_rows f) = Ok (filter (fun row => ((a <=? fst row) && (fst row <=? b))%Z) (yf_rows f)) /\ ascending (map fst (yf_rows f)).
Proof.
  intros T C L. cbn [read_inputfile]. destruct (td_years f T) as [y0 Y]. assert (ascending (map fst (yf_rows f))) as AS by (rewrite Y; apply zrange_ascending). split; [|exact AS].
  unfold covers in C. destruct (yf_rows f) as [|r0 rest] eqn:E; [destruct (C a); lia|].
  destruct (c58_cut a b (r0 :: rest) r0 rest eq_refl AS) as [CC _]. apply CC. split; [|reflexivity].
  assert (fst r0 = y0) as R0 by (cbn [map List.length] in Y; unfold zrange in Y; cbn in Y; injection Y as -> _; lia).
  pose proof (C a ltac:(lia)) as CA. pose proof (C b ltac:(lia)) as CB. rewrite Y in CA, CB |- *. rewrite zrange_In in CA, CB. cbn [List.length] in *. rewrite zrange_last.
  intros y B. apply zrange_In. rewrite R0 in B. lia.
Qed.

Section Same.
Context {A : Type} {N : Num A}.
Variables (nan : A) (fs fs' : files A) (object : pyval -> option (thing A)) (dir cwd : string) (a b : Z).
Hypothesis SW : same_in_window a b fs fs'.
Hypothesis AB : (a <= b)%Z.
Lemma years_same p start stop : int_of start = Ok a -> int_of stop = Ok b -> read_years nan fs p start stop = read_years nan fs' p start stop.
Proof.
  intros SA SB. unfold read_years. pose proof (sw_years _ _ _ _ SW p) as Y. unfold same_years in Y.
  destruct (fs_years fs p) as [f|e], (fs_years fs' p) as [f'|e']; try contradiction; [|now rewrite Y]. cbn [rbind]. rewrite SA, SB. cbn [rbind].
  destruct Y as (EN & EU & [->|(T & T' & C & C' & E)]); [reflexivity|]. rewrite EN.
  destruct (tidy_ok f a b T C AB) as [R S], (tidy_ok f' a b T' C' AB) as [R' S']. rewrite R, R'. cbn [rbind]. do 2 f_equal.
  apply sorted_same; [now apply ascending_filter | now apply ascending_filter|]. intros [y row]. rewrite !filter_In. cbn [fst]. split; intros [I B]; (split; [|exact B]); apply (E y row); try assumption; lia.
Qed.
Lemma rows_same p start stop : int_of start = Ok a -> int_of stop = Ok b -> read_by nan fs (MYearRow start stop) p = read_by nan fs' (MYearRow start stop) p.
Proof.
  intros SA SB. cbn [read_by]. rewrite SA, SB. cbn [rbind]. pose proof (sw_rows _ _ _ _ SW p) as Y. unfold same_rows in Y.
  destruct (fs_rows fs p) as [l|e], (fs_rows fs' p) as [l'|e']; try contradiction; [|now rewrite Y]. cbn [rbind].
  destruct Y as [->|[LA E]]; [reflexivity|].
  destruct (c56_rows a b l AB) as [C _], (c56_rows a b l' AB) as [C' _]. rewrite Z.max_l in C, C' by lia.
  assert (forall m : list (list A), (forall y, (a <= y <= b)%Z -> nth_error m (Z.to_nat (y - 1750)) <> None) -> (Z.to_nat (a - 1750) + Z.to_nat (b - a) < List.length m)%nat) as LEN.
  { intros m X. specialize (X b ltac:(lia)). apply nth_error_Some in X. lia. }
  assert (forall y, (a <= y <= b)%Z -> nth_error l' (Z.to_nat (y - 1750)) <> None) as E' by (intros y B; destruct (E y B) as [X <-]; exact X).
  pose proof (LEN l (fun y B => proj1 (E y B))) as L. pose proof (LEN l' E') as L'.
  assert (exists r, read_data_on_year_row a b l = Ok r) as [r R].
  { exists (firstn (Z.to_nat (b - a + 1)) (skipn (Z.to_nat (a - 1750)) l)). apply C. split; [exact L|]. rewrite firstn_length, skipn_length. split; [lia|].
    intros i I. transitivity (nth_error (skipn (Z.to_nat (a - 1750)) l) i).
    - rewrite <- (firstn_skipn (Z.to_nat (b - a + 1)) (skipn (Z.to_nat (a - 1750)) l)) at 2. rewrite nth_error_app1 by (rewrite firstn_length, skipn_length; lia). reflexivity.
    - clear. generalize (Z.to_nat (a - 1750)) as k. intros k. revert l. induction k as [|k IH]; intros l; [reflexivity|]. destruct l; [now destruct i|]. cbn. apply IH. }
  rewrite R. replace (read_data_on_year_row a b l') with (@Ok (list (list A)) r); [reflexivity|]. symmetry. apply C'. apply C in R as (_ & LR & X).
  split; [exact L'|]. split; [exact LR|]. intros i I. rewrite X by exact I. replace (Z.to_nat (a - 1750) + i) with (Z.to_nat (a + Z.of_nat i - 1750)) by lia. apply E. lia.
Qed.
Lemma read_same cfg what m p : run_window cfg a b -> dget (spec_methods cfg) what = Some m -> read_by nan fs m p = read_by nan fs' m p.
Proof.
  intros [RA RB] M. apply dget_Some_In in M. unfold spec_methods in M. cbn [In] in M.
  repeat (destruct M as [M|M]; [injection M as _ <-|]); [.. | destruct M]; try (now apply rows_same); cbn [read_by];
    rewrite ?(sw_line _ _ _ _ SW), ?(sw_numbers _ _ _ _ SW), ?(sw_components _ _ _ _ SW), ?(sw_gas _ _ _ _ SW), ?(sw_column _ _ _ _ SW), ?(sw_perturb _ _ _ _ SW); try reflexivity;
    now rewrite years_same.
Qed.
Lemma open_same cfg : open_inputs nan fs object dir cwd cfg = open_inputs nan fs' object dir cwd cfg.
Proof.
  unfold open_inputs. apply init_agree.
  - exact (sw_exists _ _ _ _ SW).
  - intros p. unfold gas_table, gas_content. cbn [content read_by]. now rewrite (sw_gas _ _ _ _ SW).
  - intros v. reflexivity.
  - intros p. unfold header. pose proof (sw_years _ _ _ _ SW p) as Y. unfold same_years in Y.
    destruct (fs_years fs p), (fs_years fs' p); try contradiction; [|now rewrite Y]. destruct Y as (EN & EU & _). cbn [rbind]. now rewrite EN, EU.
Qed.
Lemma get_same cfg h what : wf cfg -> run_window cfg a b -> open_inputs nan fs object dir cwd cfg = Ok h -> dmem (spec_methods cfg) what = true ->
  get nan fs object h what = get nan fs' object h what.
Proof.
  intros W RW O M. unfold dmem in M. destruct (dget (spec_methods cfg) what) as [m|] eqn:E; [|discriminate].
  unfold get. destruct (get_data h what) as [d|] eqn:G; [|reflexivity]. cbn [rbind].
  assert (dget (spec_methods (driver_caller_cfg cfg)) what = Some m) as M' by (rewrite (caller_methods cfg W); exact E).
  pose proof (open_source nan fs object dir cwd cfg h what m d W O M' G) as S.
  destruct S as [q q' F R | years F SV ON Y | v F D SV | E' GV | E' GV ON | E' G1 G2 ON | c C' years d g r PR E' GV S GT GR Y]; cbn [content]; try reflexivity; now apply (read_same cfg what).
Qed.
Lemma c104_read cfg : wf cfg -> run_window cfg a b -> read_data nan fs object dir cwd cfg = read_data nan fs' object dir cwd cfg.
Proof.
  intros W RW. unfold read_data. rewrite <- open_same. destruct (open_inputs nan fs object dir cwd cfg) as [h|] eqn:O; [|reflexivity]. cbn [rbind].
  assert (forall what, dmem (spec_methods cfg) what = true -> get nan fs object h what = get nan fs' object h what) as G by (intros; now apply (get_same cfg)).
  assert (forall B what (f : thing A -> result B), dmem (spec_methods cfg) what = true -> optionally nan fs object h what f = optionally nan fs' object h what f) as GO
    by (intros; unfold optionally; now rewrite G).
  assert (read_handler nan fs object h = read_handler nan fs' object h) as RH by (unfold read_handler; rewrite !G, !GO by reflexivity; reflexivity).
  rewrite !G, GO, RH by reflexivity. reflexivity.
Qed.
Lemma c104_construct number float_of cfg : wf cfg -> run_window cfg a b ->
  construct nan fs object dir cwd number float_of cfg = construct nan fs' object dir cwd number float_of cfg.
Proof. intros W RW. unfold construct, model_construct. now rewrite (c104_read cfg W RW). Qed.
End Same.
