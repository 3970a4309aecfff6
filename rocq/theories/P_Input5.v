(** * P_Input5: corollaries for C55, C56, C57, C80 *)
From Coq Require Import Reals Lia.
From Coq Require Import Ascii.
From Verif Require Import PyBase PyBaseFacts Num M_Utils M_Gas M_Driver M_Input Spec_Input P_Input P_Input2 P_Input4.

Lemma filter_ddel {V} (d : dict V) k : known_key k = false -> filter (fun kv => known_key (fst kv)) (ddel d k) = filter (fun kv => known_key (fst kv)) d.
Proof.
  intros K. induction d as [|[k' v] d IH]; [reflexivity|]. cbn [ddel]. destruct (String.eqb_spec k' k) as [->|NE]; cbn [filter fst]; rewrite ?K; [reflexivity|].
  now rewrite IH.
Qed.
Lemma wf_ddel {V} (d : dict V) k : wf d -> wf (ddel d k).
Proof.
  unfold wf, dkeys. induction d as [|[k' v] d IH]; intros W; [exact W|]. cbn [ddel]. cbn in W. inversion W; subst. destruct (String.eqb k' k); [assumption|].
  cbn. constructor; [|now apply IH]. intros I. apply H1. clear -I. revert I. induction d as [|[k2 v2] d IH]; [intros []|]. cbn. destruct (String.eqb k2 k); cbn; [now right|]. intros [E|I]; [now left | right; now apply IH].
Qed.
Lemma c55_volc {A} exists_ gas_table header dir cwd cfg : wf cfg ->
  @input_init A exists_ gas_table header dir cwd (ddel (ddel cfg "rf_volc_file") "rf_volc_data") = input_init exists_ gas_table header dir cwd cfg.
Proof.
  intros W. rewrite <- (c55_known_only exists_ gas_table header dir cwd cfg W). rewrite <- c55_known_only by (apply wf_ddel, wf_ddel, W). now rewrite !filter_ddel by reflexivity.
Qed.

Section Built.
Context {A : Type} (exists_ : cval A -> bool) (gas_table : datum A -> result (dict (gasrow A)))
  (header : cval A -> result (dict string)) (dir cwd : string) (cfg : dict pyval) (W : wf cfg) (h : hcfg A).
Hypothesis OK : input_init exists_ gas_table header dir cwd cfg = Ok h.
Let S := c55_sources exists_ gas_table header dir cwd cfg W h OK.

Lemma c55_one one other : sunvolc_on cfg = true -> (one, other) = ("rf_volc_n", "rf_volc_s") \/ (one, other) = ("rf_volc_s", "rf_volc_n") ->
  given cfg one = true -> given cfg other = false -> get_data h other = Err (KeyError other).
Proof.
  intros ON P G1 G2. assert (exists m, dget (spec_methods cfg) other = Some m) as [m M] by (destruct P as [P|P]; injection P as -> ->; eexists; reflexivity).
  destruct P as [P|P]; injection P as -> ->; (apply (S _ _ M); split; [reflexivity|]; split; [exact G2|]; split; [|split];
    [intros I; repeat (destruct I as [I|I]; [discriminate|]); destruct I | intros _; split; [exact ON|]; tauto | intros I; repeat (destruct I as [I|I]; [discriminate|]); destruct I]).
Qed.
Lemma c55_off what : sunvolc_on cfg = false -> In what ["rf_sun"; "rf_volc_n"; "rf_volc_s"] ->
  match dget cfg (what ++ "_file") with
  | Some p => get_data h what = Ok (Read (MYearRow (number cfg "nystart" 1750) (number cfg "nyend" 2100)) (CV p))
  | None => exists years, run_years_of cfg years /\ get_data h what = Ok (Given (CZeros years (if String.eqb what "rf_sun" then 1 else 12)))
  end.
Proof.
  intros OFF I. assert (dget (spec_methods cfg) what = Some (MYearRow (number cfg "nystart" 1750) (number cfg "nyend" 2100))) as M
    by (repeat (destruct I as [<-|I]; [reflexivity|]); destruct I).
  destruct (before_check exists_ gas_table header dir cwd cfg W h OK) as (h3 & years & E4 & Y & _). specialize (Y OFF).
  destruct (dget cfg (what ++ "_file")) as [p|] eqn:F.
  - apply (S _ _ M). apply S_file with (p := p); [exact F|]. unfold file_read. destruct (exists_ (CV p)) eqn:EX; [reflexivity|]. exfalso.
    refine (c58_missing exists_ gas_table header dir cwd cfg W what p _ F EX h OK). repeat (destruct I as [<-|I]; [apply smem_In; reflexivity|]). destruct I.
  - exists years. split; [exact Y|]. apply (S _ _ M). apply S_zeros; [exact F | | exact OFF | exact Y]. repeat (destruct I as [<-|I]; [reflexivity|]). destruct I.
Qed.
Lemma c80_flat c C d : (c, C) = ("nat_ch4", "CH4") \/ (c, C) = ("nat_n2o", "N2O") ->
  given cfg c = false -> given cfg "gaspam" = true -> get_data h c = Ok d ->
  exists dg g r years, get_data h "gaspam" = Ok dg /\ gas_table dg = Ok g /\ dget g C = Some r /\ run_years_of cfg years /\ d = Given (CFlat years C (nat_em r)).
Proof.
  intros P GC GG D. assert (exists m, dget (spec_methods cfg) c = Some m) as [m M] by (destruct P as [P|P]; injection P as -> ->; eexists; reflexivity).
  apply (S _ _ M) in D. unfold given, dmem in GC. assert (dget cfg (c ++ "_file") = None /\ dget cfg (c ++ "_data") = None) as [NF ND] by (destruct (dget cfg (c ++ "_file")), (dget cfg (c ++ "_data")); now try discriminate).
  destruct D as [p p' F _|years F SV _ _|v _ F _|E _|E _ _|E _ _ _|c' C' years dg g r P' E _ SG GT GR Y].
  - congruence.
  - destruct P as [P|P]; injection P as -> ->; discriminate.
  - congruence.
  - destruct P as [P|P]; injection P as -> ->; discriminate.
  - destruct P as [P|P]; injection P as -> ->; discriminate.
  - destruct P as [P|P]; injection P as -> ->; destruct E as [E|E]; discriminate E.
  - exists dg, g, r, years. split; [now apply (S "gaspam" MComponents eq_refl)|]. split; [exact GT|].
    assert (C' = C) as -> by (destruct P as [P|P], P' as [P'|P']; injection P as -> ->; injection P' as E1 E2; congruence).
    split; [exact GR|]. split; [exact Y | reflexivity].
Qed.
End Built.

Lemma map_zrange_nth {R} (g : Z -> R) a n i : (i < n)%nat -> nth_error (map g (zrange a n)) i = Some (g (a + Z.of_nat i)%Z).
Proof.
  intros L. unfold zrange. rewrite map_map, nth_error_map. rewrite (nth_error_nth' _ 0%nat) by (rewrite seq_length; lia). now rewrite seq_nth by lia.
Qed.
Lemma c56_years {R} (of_year : Z -> R) (n : nat) (first last : Z) r : (first <= last)%Z ->
  read_data_on_year_row first last (map of_year (zrange 1750 n)) = Ok r ->
  r = map of_year (zrange (Z.max first 1750) (Z.to_nat (last - first + 1))) /\
  (forall i, (i < List.length r)%nat -> nth_error r i = Some (of_year (first + Z.of_nat i + Z.max 0 (1750 - first))%Z)).
Proof.
  intros L E. apply (proj1 (c56_rows first last _ L)) in E as (B & LR & N). rewrite map_length, zrange_length in B.
  assert (forall i, (i < List.length r)%nat -> nth_error r i = Some (of_year (Z.max first 1750 + Z.of_nat i)%Z)) as X.
  { intros i I. rewrite N by exact I. rewrite map_zrange_nth by lia. do 2 f_equal. lia. }
  split; [|intros i I; rewrite X by exact I; do 2 f_equal; lia].
  apply nth_error_same. intros i. destruct (Nat.lt_ge_cases i (List.length r)) as [I|I].
  - rewrite X by exact I. now rewrite map_zrange_nth by lia.
  - rewrite !(proj2 (nth_error_None _ _)); [reflexivity | rewrite map_length, zrange_length; lia | exact I].
Qed.
Lemma c56_751 {R} (rows : list R) (first last : Z) : List.length rows = 751 -> (1750 <= first <= last)%Z ->
  (exists r, read_data_on_year_row first last rows = Ok r) <-> (last <= 2500)%Z.
Proof.
  intros L B. assert (first <= last)%Z as FL by lia. destruct (c56_rows first last rows FL) as [X _]. split.
  - intros [r E]. apply X in E as (E & _). rewrite L in E. lia.
  - intros LE. exists (firstn (Z.to_nat (last - first + 1)) (skipn (Z.to_nat (Z.max first 1750 - 1750)) rows)). apply X.
    rewrite firstn_length, skipn_length, L. split; [lia|]. split; [lia|]. intros i I. 
    rewrite <- (firstn_skipn (Z.to_nat (Z.max first 1750 - 1750)) rows) at 2. rewrite nth_error_app2; rewrite firstn_length, L; [|lia].
    replace (_ + i - _)%nat with i by lia. set (l := skipn _ rows). clearbody l. clear -I.
    assert (i < Z.to_nat (last - first + 1))%nat as J by lia. clear I. revert l i J. induction (Z.to_nat (last - first + 1)) as [|k IH]; intros l i J; [lia|].
    destruct l; [now destruct i|]. destruct i; [reflexivity|]. cbn. apply IH. lia.
Qed.

Lemma c57_total_alone (f : frame (option R)) (g : frame R) yr row t : wf (fr_cols f) ->
  dmem (fr_cols f) "total" = true -> dmem (fr_cols f) "FORC_NH" = false ->
  (forall c, dmem (fr_cols g) c = dmem (fr_cols (read_forc_table f)) c) -> fr_get g "total" yr = Ok t ->
  rf_row (RfFrame g) yr row = Err (KeyError "FORC_NH").
Proof.
  intros W T NH G GT. unfold rf_row. rewrite GT. cbn [rbind].
  assert (dget (fr_cols g) "FORC_NH" = None) as D.
  { apply dmem_false. rewrite G. unfold dmem. rewrite (c57_kept f "FORC_NH" W) by (discriminate || now left). exact NH. }
  unfold fr_get at 1, fr_col at 1. rewrite D. reflexivity.
Qed.

Lemma c59_init {A} exists_ gas_table header dir cwd cfg (h : hcfg A) : input_init exists_ gas_table header dir cwd cfg = Ok h ->
  check_gaspam gas_table header h = Ok tt.
Proof.
  unfold input_init. destruct (set_sun_volc_luc_defaults dir (initial_cfg cfg)) as [h1|]; [|discriminate]. cbn [rbind].
  destruct (fill_natural gas_table h1 "nat_ch4" "CH4") as [h2|]; [|discriminate]. cbn [rbind].
  destruct (fill_natural gas_table h2 "nat_n2o" "N2O") as [h3|]; [|discriminate]. cbn [rbind].
  destruct (check_inputfiles exists_ cwd h3) as [h4|]; [|discriminate]. cbn [rbind].
  destruct (check_gaspam gas_table header h4) as [[]|] eqn:C; [|discriminate]. cbn [rbind]. intros E. injection E as <-. exact C.
Qed.
Lemma c58_columns {V} (cols : dict V) : dget cols "CO2_FF" = None -> dget cols "CO2_AFOLU" = None ->
  dget (rename_columns cols) "CO2_FF" = dget cols "CO2" /\ dget (rename_columns cols) "CO2_AFOLU" = dget cols "CO2.1" /\
  dget (rename_columns cols) "CO2" = None /\ dget (rename_columns cols) "CO2.1" = None /\
  forall c, ~ In c ["CO2"; "CO2.1"; "CO2_FF"; "CO2_AFOLU"] -> dget (rename_columns cols) c = dget cols c.
Proof.
  induction cols as [|[k v] cols IH]; [intros; repeat split|]. cbn [dget rename_columns map fst snd]. fold (rename_columns cols). unfold rename_emission.
  destruct (String.eqb_spec k "CO2_FF") as [->|N1]; [discriminate|]. destruct (String.eqb_spec k "CO2_AFOLU") as [->|N2]; [discriminate|]. intros F L.
  destruct (IH F L) as (I1 & I2 & I3 & I4 & I5).
  destruct (String.eqb_spec k "CO2") as [->|N3]; [|destruct (String.eqb_spec k "CO2.1") as [->|N4]].
  - eqbs. repeat split; try assumption. intros c NI. rewrite I5 by exact NI. 
    rewrite !(proj2 (String.eqb_neq _ c)) by (intros <-; apply NI, smem_In; reflexivity). reflexivity.
  - eqbs. repeat split; try assumption. intros c NI. rewrite I5 by exact NI.
    rewrite !(proj2 (String.eqb_neq _ c)) by (intros <-; apply NI, smem_In; reflexivity). reflexivity.
  - apply String.eqb_neq in N1, N2, N3, N4. rewrite N1, N2, N3, N4. repeat split; try assumption. intros c NI. now rewrite I5.
Qed.

(** ** the first line of a forcing file *)
Lemma lower_is c d e : In (d, e) [("y", "Y"); ("e", "E"); ("a", "A"); ("r", "R")]%char -> (Ascii.eqb (lower c) d = true <-> c = d \/ c = e).
Proof.
  intros I. assert (Q : Ascii.eqb (lower c) d = (Ascii.eqb c d || Ascii.eqb c e)%bool).
  { repeat (destruct I as [I|I]; [injection I as <- <-; destruct c as [[] [] [] [] [] [] [] []]; reflexivity|]). destruct I. }
  rewrite Q, Bool.orb_true_iff, !Ascii.eqb_eq. tauto.
Qed.
Lemma c57_first_line line : is_component_file line = true <->
  exists y e a r rest, line = String y (String e (String a (String r rest))) /\
    (y = "y" \/ y = "Y")%char /\ (e = "e" \/ e = "E")%char /\ (a = "a" \/ a = "A")%char /\ (r = "r" \/ r = "R")%char.
Proof.
  unfold is_component_file. split.
  - intros H. destruct line as [|y [|e [|a [|r rest]]]]; cbn [substring slower String.eqb] in H;
      repeat match type of H with (if ?b then _ else _) = true => destruct b eqn:?; [|discriminate H] end; try discriminate H.
    exists y, e, a, r, rest. split; [reflexivity|]. repeat split; (eapply lower_is; [|eassumption]); cbn; auto 6.
  - intros (y & e & a & r & rest & -> & Y & E & AA & R). cbn [substring slower String.eqb].
    rewrite (proj2 (lower_is y "y" "Y" ltac:(cbn; auto)) Y), (proj2 (lower_is e "e" "E" ltac:(cbn; auto)) E), (proj2 (lower_is a "a" "A" ltac:(cbn; auto)) AA), (proj2 (lower_is r "r" "R" ltac:(cbn; auto)) R). destruct rest; reflexivity.
Qed.
