(** * P_Longer2: what two configurations that differ in their last year read from the same files (C112) *)
From Coq Require Import Lia.
From Verif Require Import PyBase PyBaseFacts Num M_Utils M_Pams M_Gas M_Forcing M_TwoLayer M_UDM M_Driver M_Results M_Parallel M_Input M_Whole M_WholeBox M_Reading
  Spec_Gas Spec_Pams Spec_Parallel Spec_Numbers Spec_WholeBox Spec_Input Spec_Reading Spec_Driver Spec_Reader Spec_Results Spec_Coupled Spec_Span Spec_Longer
  P_Input P_Input2 P_Reading P_Reading2 P_Reading5 P_Longer.
From Verif Require P_Gas2 P_Reading6.
Local Open Scope Z_scope.

Section Sources.
Context {A : Type} {N : Num A}.
Variables (nan : A) (fs : files A) (object : pyval -> option (thing A)) (dir cwd : string).
Variables (cfg cfg' : dict pyval).
Hypothesis OE : other_end cfg cfg'.
Variable fs' : files A.
Hypothesis SE : forall p, fs_exists fs p = fs_exists fs' p.
Hypothesis SG : forall p, fs_gas fs p = fs_gas fs' p.
Notation SRC := (source (fs_exists fs) (gas_table nan fs object) dir cwd).
Notation SRC' := (source (fs_exists fs') (gas_table nan fs' object) dir cwd).

(** the same source for the other window *)
Definition moved (m : rmethod) (years : list Z) (d : datum A) : datum A :=
  match d with
  | Read _ p => Read m p
  | Given (CZeros _ n) => Given (CZeros years n)
  | Given (CFlat _ c v) => Given (CFlat years c v)
  | _ => d
  end.
Lemma end_suffix w s : s = "_file" \/ s = "_data" -> (w ++ s)%string <> "nyend".
Proof.
  intros S E. assert (L : substring (String.length w) 5 (w ++ s) = s).
  { clear E. induction w as [|a w IH]; [destruct S as [->| ->]; reflexivity|]. cbn [String.length append substring]. exact IH. }
  destruct w as [|a [|b w]]; [destruct S as [->| ->]; discriminate E| |]; [destruct S as [->| ->]; discriminate E|].
  rewrite E in L. destruct w as [|c [|d [|e [|f w]]]]; destruct S as [->| ->]; cbn in E; try discriminate E.
Qed.
Lemma end_file w : dget cfg' (w ++ "_file") = dget cfg (w ++ "_file"). Proof. apply OE, end_suffix. now left. Qed.
Lemma end_data w : dget cfg' (w ++ "_data") = dget cfg (w ++ "_data"). Proof. apply OE, end_suffix. now right. Qed.
Lemma end_given w : Spec_Input.given cfg' w = Spec_Input.given cfg w. Proof. unfold Spec_Input.given, dmem. now rewrite end_file, end_data. Qed.
Lemma end_sunvolc : sunvolc_on cfg' = sunvolc_on cfg. Proof. unfold sunvolc_on. now rewrite OE by discriminate. Qed.
Lemma gas_source d l m : SRC cfg "gaspam" m d -> moved m l d = d.
Proof.
  intros S. inversion S; subst; try reflexivity; try discriminate; try (destruct H; discriminate).
  all: destruct H as [X|X]; injection X as -> _; discriminate.
Qed.
Lemma gas_same d : SRC cfg "gaspam" MComponents d -> gas_table nan fs' object d = gas_table nan fs object d.
Proof.
  intros S. unfold gas_table, gas_content. destruct d as [m p|[v|l n|l n v]]; try reflexivity. inversion S; subst; try discriminate; cbn [content read_by]; now rewrite SG.
Qed.
Lemma read_same what p p' : file_read (fs_exists fs) cwd what p p' -> file_read (fs_exists fs') cwd what p p'.
Proof. unfold file_read. now rewrite <- SE. Qed.
Lemma moved_source what m m' d l : run_years_of cfg' l -> SRC cfg what m d -> SRC' cfg' what m' (moved m' l d).
Proof.
  intros Y S. revert m'. induction S as [what m p p' F R|what m years F SV ON Y1|what m v F D SV|what m E G|what m E G ON|what m E G1 G2 ON|what m c C years d g r PR E G S IH GT GR Y1]; intros m'; cbn [moved].
  - eapply S_file; [rewrite end_file; exact F|apply read_same; exact R].
  - apply S_zeros; [rewrite end_file; exact F|exact SV|rewrite end_sunvolc; exact ON|exact Y].
  - apply S_data; [rewrite end_file; exact F|rewrite end_data; exact D|rewrite end_sunvolc; exact SV].
  - apply S_luc; [exact E|rewrite end_given; exact G].
  - apply S_sun; [exact E|rewrite end_given; exact G|rewrite end_sunvolc; exact ON].
  - apply S_volc; [exact E|rewrite end_given; exact G1|rewrite end_given; exact G2|rewrite end_sunvolc; exact ON].
  - eapply S_natural; [exact PR|exact E|rewrite end_given; exact G| |rewrite (gas_same d S); exact GT|exact GR|exact Y]. rewrite <- (gas_source d l MComponents S). apply IH.
Qed.
End Sources.

Lemma filter_window a b y0 n : y0 <= a <= b -> b < y0 + Z.of_nat n -> filter (fun y => (a <=? y) && (y <=? b)) (zrange y0 n) = zrange a (Z.to_nat (b - a + 1)).
Proof.
  intros L1 L2. replace n with (Z.to_nat (a - y0) + (Z.to_nat (b - a + 1) + (n - Z.to_nat (a - y0) - Z.to_nat (b - a + 1))))%nat by lia.
  rewrite !P_Gas2.zrange_app, !filter_app. replace (y0 + Z.of_nat (Z.to_nat (a - y0))) with a by lia.
  assert (IN : forall z s k, In z (zrange s k) -> s <= z < s + Z.of_nat k).
  { intros z s k I. apply In_nth_error in I as [j J]. assert (j < k)%nat by (assert (X : nth_error (zrange s k) j <> None) by congruence; apply nth_error_Some in X; now rewrite P_Gas2.zrange_len in X).
    rewrite P_Gas2.zrange_nth in J by assumption. injection J as <-. lia. }
  assert (NO : forall l : list Z, (forall z, In z l -> z < a \/ b < z) -> filter (fun y => (a <=? y) && (y <=? b)) l = []).
  { induction l as [|z l IH]; intros H; [reflexivity|]. cbn [filter]. destruct (Z.leb_spec a z), (Z.leb_spec z b); cbn [andb]; try (apply IH; intros w I; apply H; now right). destruct (H z); [now left|lia|lia]. }
  assert (ALL : forall l : list Z, (forall z, In z l -> a <= z <= b) -> filter (fun y => (a <=? y) && (y <=? b)) l = l).
  { induction l as [|z l IH]; intros H; [reflexivity|]. cbn [filter]. destruct (H z); [now left|]. destruct (Z.leb_spec a z), (Z.leb_spec z b); cbn [andb]; try lia. f_equal. apply IH. intros w I. apply H. now right. }
  rewrite (NO (zrange y0 _)), ALL, NO, app_nil_r; [reflexivity| | |]; intros z I; apply IN in I; lia.
Qed.
Lemma filter_fst {V} (P : Z -> bool) (l : list (Z * V)) : map fst (filter (fun r => P (fst r)) l) = filter P (map fst l).
Proof. induction l as [|[k v] l IH]; [reflexivity|]. cbn. destruct (P k); cbn; now rewrite IH. Qed.

Section Frames.
Context {A : Type} {N : Num A}.
Variables (nan : A).
Lemma frame_yearly (f : yearfile A) a b rows : tidy f -> Spec_Reading.covers f a b -> a <= b -> read_inputfile true a b (yf_rows f) = Ok rows ->
  yearly (frame_of nan (yf_names f) rows) a (Z.to_nat (b - a + 1)).
Proof.
  intros T CV L R. destruct (tidy_cut f a b rows T R) as [-> _]. destruct (td_years f T) as [y0 Y]. 
  assert (IN : forall z, a <= z <= b -> y0 <= z < y0 + Z.of_nat (List.length (yf_rows f))).
  { intros z Lz. apply CV in Lz. rewrite Y in Lz. apply In_nth_error in Lz as [j J]. assert (j < List.length (yf_rows f))%nat by (assert (X : nth_error (zrange y0 (List.length (yf_rows f))) j <> None) by congruence; apply nth_error_Some in X; now rewrite P_Gas2.zrange_len in X).
    rewrite P_Gas2.zrange_nth in J by assumption. injection J as <-. lia. }
  assert (IX : map fst (filter (fun row : Z * list A => (a <=? fst row) && (fst row <=? b)) (yf_rows f)) = zrange a (Z.to_nat (b - a + 1))).
  { rewrite (filter_fst (fun y => (a <=? y) && (y <=? b))), Y. pose proof (IN a ltac:(lia)). pose proof (IN b ltac:(lia)). apply filter_window; lia. }
  split; [exact IX|]. split; [lia|]. intros c v D. apply dget_Some_In in D. cbn [frame_of fr_cols] in D. apply in_map_iff in D as (jn & E & _). injection E as _ <-.
  rewrite map_length. rewrite <- (map_length fst), IX. apply P_Gas2.zrange_len.
Qed.
Lemma frame_keys (names : list string) (rows : list (Z * list A)) : dkeys (fr_cols (frame_of nan names rows)) = names.
Proof.
  unfold dkeys, frame_of. cbn [fr_cols]. rewrite map_map. cbn [fst]. generalize 0%nat. induction names as [|n names IH]; intros k; [reflexivity|]. cbn. f_equal. apply IH.
Qed.
Lemma agree_cells (f f' : frame A) last : dkeys (fr_cols f) = dkeys (fr_cols f') -> (forall k z v, z <= last -> fr_get f k z = Ok v <-> fr_get f' k z = Ok v) -> agree_on (until last) f f'.
Proof.
  intros K H. split; [exact K|]. intros k z Lz. unfold until in Lz. destruct (fr_get f k z) as [v|e] eqn:E.
  - symmetry. now apply H.
  - destruct (fr_get f' k z) as [v|e'] eqn:E'; [apply H in E'; [congruence|exact Lz]|]. unfold fr_get, fr_col in E, E'.
    destruct (dget (fr_cols f) k) as [c|] eqn:D, (dget (fr_cols f') k) as [c'|] eqn:D'; cbn [key rbind] in E, E'.
    + destruct (yget _ z); cbn [key] in E; [discriminate|]. destruct (yget (combine (fr_index f') c') z); cbn [key] in E'; [discriminate|]. congruence.
    + exfalso. apply dget_None_keys in D'. apply D'. rewrite <- K. apply dget_In_keys, dmem_true. eauto.
    + exfalso. apply dget_None_keys in D. apply D. rewrite K. apply dget_In_keys, dmem_true. eauto.
    + congruence.
Qed.
End Frames.

Section Read.
Context {A : Type} {N : Num A}.
Variables (nan : A) (fs fs' : files A) (object : pyval -> option (thing A)) (dir cwd : string).
Variables (cfg cfg' : dict pyval) (x x' : data A) (first mid last last' : Z).
Hypothesis OE : other_end cfg cfg'.
Hypothesis W : wf cfg.
Hypothesis W' : wf cfg'.
Hypothesis RD : read_data nan fs object dir cwd cfg = Ok x.
Hypothesis RD' : read_data nan fs' object dir cwd cfg' = Ok x'.
Hypothesis XF : x_forc x = None.
Hypothesis RW : run_window cfg first last.
Hypothesis RW' : run_window cfg' first last'.
Hypothesis OR : first <= mid /\ mid <= last /\ mid <= last'.
Hypothesis SW : same_in_window first mid fs fs'.
Variables (pc pe : pyval) (fc fc' fe fe' : yearfile A).
Hypothesis PC : dget cfg "concentrations_file" = Some pc.
Hypothesis PE : dget cfg "emissions_file" = Some pe.
Hypothesis FC : fs_years fs (CV pc) = Ok fc.
Hypothesis FE : fs_years fs (CV pe) = Ok fe.
Hypothesis FC' : fs_years fs' (CV pc) = Ok fc'.
Hypothesis FE' : fs_years fs' (CV pe) = Ok fe'.
Hypothesis TC : tidy fc.
Hypothesis TE : tidy fe.
Hypothesis TC' : tidy fc'.
Hypothesis TE' : tidy fe'.
Hypothesis NC : Spec_Reading.covers fc first last.
Hypothesis NE : Spec_Reading.covers fe first last.
Hypothesis NC' : Spec_Reading.covers fc' first last'.
Hypothesis NE' : Spec_Reading.covers fe' first last'.
Hypothesis N1 : ~ In "CO2_FF" (yf_names fe).
Hypothesis N2 : ~ In "CO2_AFOLU" (yf_names fe).
Hypothesis GC : forall k, ordinary (x_gas x) k -> In k (yf_names fc) /\ exists col, emission_column k = Some col /\ In col (yf_names fe).
Notation INP := (input nan fs object dir cwd).
Notation INP' := (input nan fs' object dir cwd).
Notation M := (Z.to_nat (mid - first)).

Lemma inputs_moved what t t' m m' : dget (spec_methods cfg) what = Some m -> dget (spec_methods cfg') what = Some m' -> INP cfg what t -> INP' cfg' what t' ->
  exists d, content nan fs object d = Ok t /\ content nan fs' object (moved m' (zrange first (Z.to_nat (last' + 1 - first))) d) = Ok t' /\
    (forall q p, d = Read q p -> q = m) /\ (forall l n, d = Given (CZeros l n) -> l = zrange first (Z.to_nat (last + 1 - first))) /\
    (forall l n v, d = Given (CFlat l n v) -> l = zrange first (Z.to_nat (last + 1 - first))).
Proof.
  intros MM MM' (m1 & d & E1 & S & C) (m2 & d' & E2 & S' & C'). assert (m1 = m) by congruence. assert (m2 = m') by congruence. subst m1 m2. exists d. split; [exact C|].
  assert (YR : run_years_of cfg' (zrange first (Z.to_nat (last' + 1 - first)))) by (exists first, last'; split; [apply RW'|split; [apply RW'|reflexivity]]).
  pose proof (moved_source nan fs object dir cwd cfg cfg' OE fs' (sw_exists _ _ _ _ SW) (sw_gas _ _ _ _ SW) what m m' d _ YR S) as S2.
  split; [rewrite (source_unique _ _ _ _ _ what m' _ _ S2 S'); exact C'|].
  assert (YU : forall l, run_years_of cfg l -> l = zrange first (Z.to_nat (last + 1 - first))).
  { intros l (a & b & RA & RB & ->). destruct RW as [WA WB]. rewrite WA in RA. rewrite WB in RB. injection RA as <-. injection RB as <-. reflexivity. }
  split; [|split].
  - intros q p ->. inversion S; reflexivity.
  - intros l n ->. apply YU. inversion S; assumption.
  - intros l n v ->. apply YU. inversion S; assumption.
Qed.
Lemma rows_prefix (l l' r r' : list (list A)) : same_rows first mid (Ok l) (Ok l') -> read_data_on_year_row first last l = Ok r -> read_data_on_year_row first last' l' = Ok r' -> rows_agree M r r'.
Proof.
  set (from := fun l : list (list A) => if 1750 <? first then skipn (Z.to_nat (first - 1750)) l else l).
  assert (CUT : forall e l r, read_data_on_year_row first e l = Ok r -> r = firstn (Z.to_nat (e + 1 - first)) (from l)).
  { clear l l' r r'. intros e l r. unfold read_data_on_year_row, year_count. fold (from l). destruct (from l) as [|z rest]; [discriminate|]. destruct (Nat.eqb _ _); [|discriminate]. intros X. now injection X as <-. }
  intros SR E E'. apply CUT in E as ->. apply CUT in E' as ->. intros i Li.
  assert (G : forall n (l : list (list A)), (i < n)%nat -> nth_error (firstn n l) i = nth_error l i).
  { clear. induction i as [|i IH]; intros [|n] [|x l] H; try lia; try reflexivity. cbn. apply IH. lia. }
  rewrite !G by lia. destruct SR as [->|[LO SR]]; [reflexivity|].
  assert (SK : forall k (l : list (list A)), nth_error (skipn k l) i = nth_error l (k + i)) by (clear; induction k as [|k IH]; intros [|x l]; cbn; try reflexivity; [now destruct i|apply IH]).
  assert (FR : forall l, nth_error (from l) i = nth_error l (Z.to_nat (first + Z.of_nat i - 1750))).
  { intros q. unfold from. destruct (Z.ltb_spec 1750 first); [rewrite SK; f_equal; lia|f_equal; lia]. }
  rewrite !FR. apply SR. lia.
Qed.
Lemma rows_alike what r r' : In what ["rf_luc"; "rf_sun"; "rf_volc_n"; "rf_volc_s"] -> INP cfg what (TRows r) -> INP' cfg' what (TRows r') -> rows_agree M r r'.
Proof.
  intros I IN IN'. set (my c := MYearRow (Spec_Input.number c "nystart" 1750) (Spec_Input.number c "nyend" 2100)).
  destruct (inputs_moved what (TRows r) (TRows r') (my cfg) (my cfg')) as (d & C & C' & DM & DZ & _); try assumption.
  1, 2: repeat (destruct I as [<-|I]; [reflexivity|]); destruct I.
  destruct d as [m p|[v|l n|l n v]]; cbn [moved] in C'.
  - rewrite (DM m p eq_refl) in C. cbn [content read_by my] in C, C'. destruct RW as [WA WB], RW' as [WA' WB']. rewrite WA, WB in C. rewrite WA', WB' in C'. cbn [rbind] in C, C'.
    pose proof (sw_rows _ _ _ _ SW p) as SR. destruct (fs_rows fs p) as [rows|]; cbn [rbind] in C, C'; [|discriminate C]. destruct (fs_rows fs' p) as [rows'|]; cbn [rbind] in C'; [|discriminate C'].
    bindx C q E. bindx C' q' E'. injection C as <-. injection C' as <-. exact (rows_prefix rows rows' q q' SR E E').
  - cbn [content] in C, C'. destruct (object v); [|discriminate C]. injection C as ->. injection C' as <-. intros i _. reflexivity.
  - cbn [content] in C, C'. rewrite (DZ l n eq_refl) in C. injection C as <-. injection C' as <-. intros i Li. rewrite !nth_error_map, !P_Gas2.zrange_nth by lia. reflexivity.
  - discriminate C.
Qed.
Lemma first_alike (r r' : list (list A)) l l' : first_cells r l -> first_cells r' l' -> rows_agree M r r' -> rows_agree M l l'.
Proof.
  unfold first_cells. intros F F' R i Li. assert (X : option_map (@hd_error A) (nth_error r i) = option_map Some (nth_error l i)) by now rewrite <- !nth_error_map, F.
  assert (X' : option_map (@hd_error A) (nth_error r' i) = option_map Some (nth_error l' i)) by now rewrite <- !nth_error_map, F'.
  rewrite (R i Li), X' in X. destruct (nth_error l i), (nth_error l' i); cbn in X; congruence.
Qed.
Lemma same_input what m t t' : (forall p, read_by nan fs m p = read_by nan fs' m p) -> dget (spec_methods cfg) what = Some m -> dget (spec_methods cfg') what = Some m -> (forall r, t <> TRows r) -> (forall f, t <> TFrame f) -> INP cfg what t -> INP' cfg' what t' -> t = t'.
Proof.
  intros RB MM MM' NR NF IN IN'. destruct (inputs_moved what t t' m m MM MM' IN IN') as (d & C & C' & DM & _). destruct d as [q p|[v|l n|l n v]]; cbn [moved] in C'.
  - rewrite (DM q p eq_refl) in C. cbn [content] in C, C'. rewrite RB in C. congruence.
  - cbn [content] in C, C'. congruence.
  - injection C as C. now destruct (NR _ (eq_sym C)).
  - injection C as C. now destruct (NF _ (eq_sym C)).
Qed.
Lemma natural_alike what c f f' : dget (spec_methods cfg) what = Some (MNatural c) -> dget (spec_methods cfg') what = Some (MNatural c) -> INP cfg what (TFrame f) -> INP' cfg' what (TFrame f') ->
  agree_on (until mid) f f'.
Proof.
  intros MM MM' IN IN'. destruct (inputs_moved what _ _ _ _ MM MM' IN IN') as (d & C & C' & DM & _ & DF). destruct d as [q p|[v|l n|l n v]]; cbn [moved] in C'.
  - rewrite (DM q p eq_refl) in C. cbn [content read_by] in C, C'. rewrite (sw_column _ _ _ _ SW) in C. rewrite C in C'. injection C' as ->. split; [reflexivity|]. reflexivity.
  - cbn [content] in C, C'. rewrite C in C'. injection C' as ->. split; reflexivity.
  - discriminate C.
  - rewrite (DF l n v eq_refl) in C. cbn [content] in C, C'. injection C as <-. injection C' as <-. apply agree_cells; [reflexivity|]. intros k z w Lz.
    destruct (String.eqb_spec k n) as [->|NK].
    + destruct (Z_lt_le_dec z first) as [LO|HI].
      * assert (NO : forall e, fr_get (Build_frame (zrange first e) [(n, map (fun _ : Z => v) (zrange first e))]) n z <> Ok w).
        { intros e. unfold fr_get, fr_col. cbn [fr_cols fr_index dget]. rewrite String.eqb_refl. cbn [key rbind]. assert (G : forall s, z < s -> yget (combine (zrange s e) (map (fun _ : Z => v) (zrange s e))) z = None).
          { induction e as [|e IH]; intros s Ls; [reflexivity|]. rewrite P_Gas2.zrange_S. cbn. destruct (Z.eqb_spec s z); [lia|]. apply IH. lia. }
          rewrite G by exact LO. discriminate. }
        split; intros X; exfalso; now apply NO in X.
      * rewrite !P_Reading6.flat_get by lia. tauto.
    + unfold fr_get, fr_col. cbn [fr_cols dget]. destruct (String.eqb_spec n k); [congruence|]. cbn. split; discriminate.
Qed.
Lemma may_alike what m (o o' : option (ptable A)) : (forall p, read_by nan fs m p = read_by nan fs' m p) -> dget (spec_methods cfg) what = Some m -> dget (spec_methods cfg') what = Some m ->
  optional_input nan fs object dir cwd cfg what (option_map (@TPerturb A) o) -> optional_input nan fs' object dir cwd cfg' what (option_map (@TPerturb A) o') -> o' = o.
Proof.
  intros RB MM MM' O O'. destruct o as [t|], o' as [t'|]; cbn [option_map optional_input] in O, O'.
  - destruct O as [_ O], O' as [_ O']. assert (X : TPerturb t = TPerturb t') by (eapply same_input; eauto; discriminate). injection X as ->. reflexivity.
  - destruct O as [O _]. rewrite (end_given cfg cfg' OE) in O'. congruence.
  - destruct O' as [O' _]. rewrite (end_given cfg cfg' OE) in O'. congruence.
  - reflexivity.
Qed.
Lemma c112_read : data_until first mid x x' /\ Spec_Coupled.covers (x_conc x) first last (ordinary (x_gas x)) /\ Spec_Coupled.covers (x_emis x) first last (ordinary (x_gas x)) /\
  Spec_Coupled.covers (x_conc x') first last' (ordinary (x_gas x)) /\ Spec_Coupled.covers (x_emis x') first last' (ordinary (x_gas x)).
Proof.
  destruct (c102_fields _ _ _ _ _ _ _ W RD) as (F1 & F2 & F3 & F4 & (s & F5 & F5') & (u & F6 & F6')). destruct (c102_fields _ _ _ _ _ _ _ W' RD') as (G1 & G2 & G3 & G4 & (s' & G5 & G5') & (u' & G6 & G6')).
  assert (XF' : x_forc x' = None).
  { destruct (x_forc x') as [f|]; [|reflexivity]. exfalso. rewrite XF in F1. cbn [option_map optional_input] in F1, G1. rewrite (end_given cfg cfg' OE) in G1. destruct G1. congruence. }
  destruct (F2 XF) as ((g & F7 & F8) & F9 & F10 & F11 & F12 & F13 & F14 & F15). destruct (G2 XF') as ((g' & G7 & G8) & G9 & G10 & G11 & G12 & G13 & G14 & G15).
  assert (GG : TGas g = TGas g') by (eapply (same_input "gaspam" MComponents); try eassumption; try reflexivity; try discriminate; intros p; cbn [read_by]; now rewrite (sw_gas _ _ _ _ SW)). injection GG as <-.
  assert (PC' : dget cfg' "concentrations_file" = Some pc) by (rewrite OE by discriminate; exact PC). assert (PE' : dget cfg' "emissions_file" = Some pe) by (rewrite OE by discriminate; exact PE).
  (* the frames as they are read *)
  assert (CN : exists rows, read_inputfile true first last (yf_rows fc) = Ok rows /\ x_conc x = frame_of nan (yf_names fc) rows).
  { apply (input_file nan fs object dir cwd cfg "concentrations" pc) in F11 as (m & MM & B); [|exact PC|now left]. injection MM as <-. cbn [read_by] in B. bindx B fr E. injection B as ->.
    unfold read_years in E. destruct RW as [WA WB]. rewrite FC, WA, WB in E. cbn [rbind] in E. bindx E rows C. injection E as <-. eauto. }
  assert (CN' : exists rows, read_inputfile true first last' (yf_rows fc') = Ok rows /\ x_conc x' = frame_of nan (yf_names fc') rows).
  { apply (input_file nan fs' object dir cwd cfg' "concentrations" pc) in G11 as (m & MM & B); [|exact PC'|now left]. injection MM as <-. cbn [read_by] in B. bindx B fr E. injection B as ->.
    unfold read_years in E. destruct RW' as [WA WB]. rewrite FC', WA, WB in E. cbn [rbind] in E. bindx E rows C. injection E as <-. eauto. }
  assert (EN : exists rows, read_inputfile true first last (yf_rows fe) = Ok rows /\ x_emis x = {| fr_index := map fst rows; fr_cols := rename_columns (fr_cols (frame_of nan (yf_names fe) rows)) |}).
  { apply (input_file nan fs object dir cwd cfg "emissions" pe) in F12 as (m & MM & B); [|exact PE|right; now left]. injection MM as <-. cbn [read_by] in B. bindx B fr E. injection B as B.
    unfold read_years in E. destruct RW as [WA WB]. rewrite FE, WA, WB in E. cbn [rbind] in E. bindx E rows C. injection E as <-. exists rows. split; [reflexivity|]. symmetry. exact B. }
  assert (EN' : exists rows, read_inputfile true first last' (yf_rows fe') = Ok rows /\ x_emis x' = {| fr_index := map fst rows; fr_cols := rename_columns (fr_cols (frame_of nan (yf_names fe') rows)) |}).
  { apply (input_file nan fs' object dir cwd cfg' "emissions" pe) in G12 as (m & MM & B); [|exact PE'|right; now left]. injection MM as <-. cbn [read_by] in B. bindx B fr E. injection B as B.
    unfold read_years in E. destruct RW' as [WA WB]. rewrite FE', WA, WB in E. cbn [rbind] in E. bindx E rows C. injection E as <-. exists rows. split; [reflexivity|]. symmetry. exact B. }
  destruct CN as (r1 & Q1 & C1), CN' as (r1' & Q1' & C1'), EN as (r2 & Q2 & C2), EN' as (r2' & Q2' & C2').
  assert (NN : yf_names fc' = yf_names fc /\ yf_names fe' = yf_names fe).
  { pose proof (sw_years _ _ _ _ SW (CV pc)) as Y1. pose proof (sw_years _ _ _ _ SW (CV pe)) as Y2. rewrite FC, FC' in Y1. rewrite FE, FE' in Y2. split; symmetry; [apply Y1|apply Y2]. }
  destruct NN as [NN1 NN2].
  assert (CELL : forall p f f' z k v, fs_years fs p = Ok f -> fs_years fs' p = Ok f' -> first <= z <= mid -> Spec_Reading.cell f z k v <-> Spec_Reading.cell f' z k v).
  { intros p f f' z k v E E' Lz. pose proof (sw_years _ _ _ _ SW p) as Y. rewrite E, E' in Y. destruct Y as (Y1 & _ & [->|(_ & _ & _ & _ & Y2)]); [tauto|]. unfold Spec_Reading.cell. rewrite Y1.
    split; intros (row & j & I & H); exists row, j; (split; [apply (Y2 z row Lz); exact I|exact H]). }
  assert (CC : forall f b rows, tidy f -> yf_names f = yf_names fc -> first <= b -> Spec_Reading.covers f first b -> read_inputfile true first b (yf_rows f) = Ok rows ->
    Spec_Coupled.covers (frame_of nan (yf_names f) rows) first b (ordinary (x_gas x))).
  { intros f b rows T NM Lb CB R. exists first, (Z.to_nat (b - first + 1)). split; [now apply frame_yearly|]. split; [lia|]. split; [lia|]. intros k K. apply GC in K as [K _].
    apply dmem_true, dget_In_keys. rewrite frame_keys, NM. exact K. }
  assert (CE : forall f b rows, tidy f -> yf_names f = yf_names fe -> first <= b -> Spec_Reading.covers f first b -> read_inputfile true first b (yf_rows f) = Ok rows ->
    Spec_Coupled.covers {| fr_index := map fst rows; fr_cols := rename_columns (fr_cols (frame_of nan (yf_names f) rows)) |} first b (ordinary (x_gas x))).
  { intros f b rows T NM Lb CB R. exists first, (Z.to_nat (b - first + 1)). destruct (frame_yearly nan f first b rows T CB Lb R) as (Y1 & Y2 & Y3).
    assert (NO : forall n, ~ In n (yf_names fe) -> dget (fr_cols (frame_of nan (yf_names f) rows)) n = None) by (intros n NI; apply dget_None_keys; now rewrite frame_keys, NM).
    split; [|split; [lia|split; [lia|]]].
    - split; [exact Y1|]. split; [exact Y2|]. cbn [fr_cols]. intros c v D. rewrite rename_get in D by now apply NO. destruct (emission_column c) as [col|]; [|discriminate]. exact (Y3 _ _ D).
    - cbn [fr_cols]. intros k K. apply GC in K as [_ (col & EC & IC)]. rewrite rename_get by now apply NO. rewrite EC. apply dmem_true, dget_In_keys. now rewrite frame_keys, NM. }
  split; [|split; [rewrite C1; apply CC; try assumption; try reflexivity; lia|split; [rewrite C2; apply CE; try assumption; try reflexivity; lia|split; [rewrite C1'; apply CC; try assumption; lia|rewrite C2'; apply CE; try assumption; lia]]]].
  constructor.
  - split; assumption.
  - rewrite F15, G15. rewrite OE by discriminate. reflexivity.
  - congruence.
  - apply agree_cells; [rewrite C1, C1', !frame_keys, NN1; reflexivity|]. intros k z v Lz.
    rewrite (c102_concentrations nan fs object dir cwd cfg x pc fc first last W RD XF RW PC FC TC k z v). rewrite (c102_concentrations nan fs' object dir cwd cfg' x' pc fc' first last' W' RD' XF' RW' PC' FC' TC' k z v).
    split; intros [B H]; (split; [lia|]); apply (CELL (CV pc) fc fc' z k v FC FC'); try lia; exact H.
  - assert (N1' : ~ In "CO2_FF" (yf_names fe')) by (rewrite NN2; exact N1). assert (N2' : ~ In "CO2_AFOLU" (yf_names fe')) by (rewrite NN2; exact N2). apply agree_cells.
    + rewrite C2, C2'. cbn [fr_cols]. unfold rename_columns, dkeys. rewrite !map_map. cbn [fst]. rewrite <- !(map_map fst rename_emission). f_equal. change (dkeys (fr_cols (frame_of nan (yf_names fe) r2)) = dkeys (fr_cols (frame_of nan (yf_names fe') r2'))).
      now rewrite !frame_keys, NN2.
    + intros k z v Lz. rewrite (c102_emissions nan fs object dir cwd cfg x pe fe first last W RD XF RW PE FE TE N1 N2 k z v). rewrite (c102_emissions nan fs' object dir cwd cfg' x' pe fe' first last' W' RD' XF' RW' PE' FE' TE' N1' N2' k z v).
      split; intros [B (col & EC & H)]; (split; [lia|]); exists col; (split; [exact EC|]); apply (CELL (CV pe) fe fe' z col v FE FE'); try lia; exact H.
  - split; [eapply (natural_alike "nat_ch4" "CH4")|eapply (natural_alike "nat_n2o" "N2O")]; try eassumption; reflexivity.
  - split; [eapply (may_alike "perturb_em" MCsvNoIndex)|eapply (may_alike "perturb_forc" MCsv)]; try eassumption; try reflexivity; intros p; cbn [read_by]; now rewrite (sw_perturb _ _ _ _ SW).
  - exact (first_alike s s' _ _ F5' G5' (rows_alike "rf_sun" s s' ltac:(cbn; tauto) F5 G5)).
  - exact (first_alike u u' _ _ F6' G6' (rows_alike "rf_luc" u u' ltac:(cbn; tauto) F6 G6)).
  - exact (rows_alike "rf_volc_n" _ _ ltac:(cbn; tauto) F3 G3).
  - exact (rows_alike "rf_volc_s" _ _ ltac:(cbn; tauto) F4 G4).
Qed.
End Read.

Lemma window_whole cfg a b : run_window cfg a b -> whole_number (num_or (Some cfg) "nystart" (VInt 1750)) = Ok a /\ whole_number (num_or (Some cfg) "nyend" (VInt 2100)) = Ok b.
Proof. intros [RA RB]. split; apply P_Reading5.int_whole; assumption. Qed.

Lemma c112_disks : forall (A : Type) (N : Num A) nan number float_of fs fs' object dir cwd cfg cfg' (x x' : data A) first mid last last' em ry pc pe fc fc' fe fe' cs c m0 m0' m m' b b',
  wf cfg -> wf cfg' -> other_end cfg cfg' -> run_window cfg first last -> run_window cfg' first last' -> first <= mid /\ mid <= last /\ mid <= last' -> same_in_window first mid fs fs' -> Forall dictionaries (cs ++ [c]) ->
  read_data nan fs object dir cwd cfg = Ok x -> read_data nan fs' object dir cwd cfg' = Ok x' -> x_forc x = None ->
  dget cfg "concentrations_file" = Some pc -> fs_years fs (CV pc) = Ok fc -> tidy fc -> Spec_Reading.covers fc first last -> fs_years fs' (CV pc) = Ok fc' -> tidy fc' -> Spec_Reading.covers fc' first last' ->
  dget cfg "emissions_file" = Some pe -> fs_years fs (CV pe) = Ok fe -> tidy fe -> Spec_Reading.covers fe first last -> fs_years fs' (CV pe) = Ok fe' -> tidy fe' -> Spec_Reading.covers fe' first last' ->
  ~ In "CO2_FF" (yf_names fe) -> ~ In "CO2_AFOLU" (yf_names fe) ->
  wf (x_gas x) -> (forall k, In k reserved -> ~ In k (dkeys (x_gas x))) ->
  (forall k, ordinary (x_gas x) k -> In k (yf_names fc) /\ exists col, emission_column k = Some col /\ In col (yf_names fe)) ->
  whole_number (num_or (Some cfg) "emstart" (VInt 1850)) = Ok em -> (x_conc_run x = true \/ first < em /\ (mid < em \/ (last <= em <-> last' <= em))) ->
  whole_number (num_or (cf_emiconc c) "ref_yr" (VInt 2010)) = Ok ry -> ry <= mid ->
  (match Spec_Pams.given (cf_emiconc c) "lifetime_mode" with Some v => as_text v | None => "TAR" end = "TAR" -> 2000 <= mid) ->
  construct nan fs object dir cwd number float_of cfg = Ok m0 -> construct nan fs' object dir cwd number float_of cfg' = Ok m0' ->
  model_after nan number m0 cs m -> model_after nan number m0' cs m' ->
  model_run nan number m (cf_udm c) (cf_emiconc c) (cf_carbon c) = Ok b -> model_run nan number m' (cf_udm c) (cf_emiconc c) (cf_carbon c) = Ok b' ->
  exists cl, driver_thermal cfg = Ok cl /\ agree_until first mid last last' (x_gas x) cl (model_results b) (model_results b').
Proof.
  intros A N nan number float_of fs fs' object dir cwd cfg cfg' x x' first mid last last' em ry pc pe fc fc' fe fe' cs c m0 m0' m m' b b' W W' OE RW RW' OR SW FD RD RD' XF PC FC TC NC FC' TC' NC' PE FE TE NE FE' TE' NE' N1 N2 WG RS GC EY SO RY RL TL CO CO' AR AR' R R'.
  apply (construct_with nan number float_of fs object dir cwd cfg x m0 RD) in CO. apply (construct_with nan number float_of fs' object dir cwd cfg' x' m0' RD') in CO'.
  destruct (c112_read nan fs fs' object dir cwd cfg cfg' x x' first mid last last' OE W W' RD RD' XF RW RW' OR SW pc pe fc fc' fe fe' PC PE FC FE FC' FE' TC TE TC' TE' NC NE NC' NE' N1 N2 GC) as (DU & V1 & V2 & V3 & V4).
  destruct (window_whole _ _ _ RW) as [FY LY]. destruct (window_whole _ _ _ RW') as [_ LY'].
  exact (c112_data nan number float_of cfg cfg' x x' first mid last last' em ry cs c OE FY LY LY' EY RY OR DU RL TL SO V1 V2 V3 V4 WG RS W W' FD m0 m0' m m' b b' CO CO' AR AR' R R').
Qed.
Lemma window_refl {A} a b (fs : files A) : same_in_window a b fs fs.
Proof. constructor; try reflexivity; intros p; [destruct (fs_years fs p) as [f|]; cbn; [split; [reflexivity|split; [reflexivity|now left]]|reflexivity]|destruct (fs_rows fs p) as [l|]; cbn; [now left|reflexivity]]. Qed.
Lemma c112 : forall (A : Type) (N : Num A) nan number float_of fs object dir cwd cfg cfg' (x x' : data A) first last last' em ry pc pe fc fe cs c m0 m0' m m' b b',
  wf cfg -> wf cfg' -> other_end cfg cfg' -> run_window cfg first last -> run_window cfg' first last' -> first <= last <= last' -> Forall dictionaries (cs ++ [c]) ->
  read_data nan fs object dir cwd cfg = Ok x -> read_data nan fs object dir cwd cfg' = Ok x' -> x_forc x = None ->
  dget cfg "concentrations_file" = Some pc -> fs_years fs (CV pc) = Ok fc -> tidy fc -> Spec_Reading.covers fc first last' ->
  dget cfg "emissions_file" = Some pe -> fs_years fs (CV pe) = Ok fe -> tidy fe -> Spec_Reading.covers fe first last' -> ~ In "CO2_FF" (yf_names fe) -> ~ In "CO2_AFOLU" (yf_names fe) ->
  wf (x_gas x) -> (forall k, In k reserved -> ~ In k (dkeys (x_gas x))) ->
  (forall k, ordinary (x_gas x) k -> In k (yf_names fc) /\ exists col, emission_column k = Some col /\ In col (yf_names fe)) ->
  whole_number (num_or (Some cfg) "emstart" (VInt 1850)) = Ok em -> (x_conc_run x = true \/ first < em /\ (em = last -> last' = last)) ->
  whole_number (num_or (cf_emiconc c) "ref_yr" (VInt 2010)) = Ok ry -> ry <= last ->
  (match Spec_Pams.given (cf_emiconc c) "lifetime_mode" with Some v => as_text v | None => "TAR" end = "TAR" -> 2000 <= last) ->
  construct nan fs object dir cwd number float_of cfg = Ok m0 -> construct nan fs object dir cwd number float_of cfg' = Ok m0' ->
  model_after nan number m0 cs m -> model_after nan number m0' cs m' ->
  model_run nan number m (cf_udm c) (cf_emiconc c) (cf_carbon c) = Ok b -> model_run nan number m' (cf_udm c) (cf_emiconc c) (cf_carbon c) = Ok b' ->
  exists cl, driver_thermal cfg = Ok cl /\ agree_until first last last last' (x_gas x) cl (model_results b) (model_results b').
Proof.
  intros A N nan number float_of fs object dir cwd cfg cfg' x x' first last last' em ry pc pe fc fe cs c m0 m0' m m' b b' W W' OE RW RW' OR FD RD RD' XF PC FC TC NC PE FE TE NE N1 N2 WG RS GC EY SO.
  apply (c112_disks A N nan number float_of fs fs object dir cwd cfg cfg' x x' first last last last' em ry pc pe fc fc fe fe cs c m0 m0' m m' b b' W W' OE RW RW' ltac:(lia) (window_refl _ _ _) FD RD RD' XF PC FC TC); try assumption.
  1, 2: intros y Ly; (apply NC || apply NE); lia.
  destruct SO as [SO|[SA SB]]; [left; exact SO|right; split; [exact SA|]]. destruct (Z.lt_trichotomy last em) as [X|[X|X]]; [left; exact X|right; specialize (SB (eq_sym X)); lia|right; lia].
Qed.
