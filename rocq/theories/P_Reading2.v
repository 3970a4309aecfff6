(** * P_Reading2: emission and concentration files by cells (C102); other years do not matter (C104) *)
From Coq Require Import Lia Sorted.
From Verif Require Import PyBase PyBaseFacts Num M_Utils M_Pams M_Gas M_Driver M_Input M_Whole M_WholeBox M_Reading Spec_Pams Spec_Input Spec_Reading P_Pams P_Input P_Input2 P_Input5 P_Reading.

Section Cells.
Context {A : Type} {N : Num A}.
Variables (nan : A).
Definition column (rows : list (Z * list A)) (j : nat) : list A := map (fun r => nth j (snd r) nan) rows.
Lemma frame_of_get names rows k c : NoDup names ->
  dget (map (fun jn => (snd jn, column rows (fst jn))) (combine (seq k (List.length names)) names)) c =
  match find (fun jn => String.eqb (snd jn) c) (combine (seq k (List.length names)) names) with Some jn => Some (column rows (fst jn)) | None => None end.
Proof.
  intros _. generalize (combine (seq k (List.length names)) names) as l. induction l as [|[j n] l IH]; [reflexivity|]. cbn [map dget find fst snd].
  destruct (String.eqb n c); [reflexivity | exact IH].
Qed.
Lemma find_name names c : NoDup names -> forall k j, nth_error names j = Some c ->
  find (fun jn => String.eqb (snd jn) c) (combine (seq k (List.length names)) names) = Some (k + j, c).
Proof.
  induction 1 as [|n names NI ND IH]; intros k j E; [now destruct j|]. cbn [List.length seq combine find fst snd]. destruct j as [|j].
  - injection E as ->. rewrite String.eqb_refl, Nat.add_0_r. reflexivity.
  - cbn in E. destruct (String.eqb_spec n c) as [->|_]; [exfalso; apply NI; now apply nth_error_In in E|]. rewrite (IH (S k) j E). do 2 f_equal. lia.
Qed.
Lemma find_noname names c : ~ In c names -> forall k, find (fun jn => String.eqb (snd jn) c) (combine (seq k (List.length names)) names) = None.
Proof.
  induction names as [|n names IH]; intros NI k; [reflexivity|]. cbn [List.length seq combine find snd]. destruct (String.eqb_spec n c) as [->|_]; [exfalso; apply NI; now left|].
  apply IH. intros I. apply NI. now right.
Qed.
Lemma yget_rows {V} (rows : list (Z * V)) {B} (f : Z * V -> B) y : NoDup (map fst rows) -> forall v,
  yget (combine (map fst rows) (map f rows)) y = Some v <-> exists r, In (y, r) rows /\ v = f (y, r).
Proof.
  induction rows as [|[z w] rows IH]; intros ND v; cbn; [split; [discriminate | intros (r & [] & _)]|]. inversion ND as [|? ? NI ND']; subst.
  destruct (Z.eqb_spec z y) as [->|NE].
  - split; [intros X; injection X as <-; exists w; auto|]. intros (r & [E|I] & ->); [now injection E as ->|]. exfalso. apply NI. now apply (in_map fst) in I.
  - rewrite IH by assumption. split; intros (r & I & ->); exists r; (split; [|reflexivity]); [now right|]. destruct I as [E|I]; [congruence | exact I].
Qed.
Lemma ascending_NoDup l : ascending l -> NoDup l.
Proof. induction 1 as [|y l S IH F]; constructor; [|exact IH]. intros I. rewrite Forall_forall in F. specialize (F y I). lia. Qed.
Lemma tidy_cut (f : yearfile A) a b rows : tidy f -> read_inputfile true a b (yf_rows f) = Ok rows ->
  rows = filter (fun row => ((a <=? fst row) && (fst row <=? b))%Z) (yf_rows f) /\ NoDup (map fst rows).
Proof.
  intros T R. cbn [read_inputfile] in R. destruct (td_years f T) as [y0 Y].
  destruct (yf_rows f) as [|r0 rest] eqn:E; [discriminate|].
  assert (ascending (map fst (r0 :: rest))) as AS by (rewrite Y; apply zrange_ascending).
  destruct (c58_cut a b (r0 :: rest) r0 rest eq_refl AS) as [C _]. apply C in R as [_ ->]. split; [reflexivity|].
  apply ascending_NoDup. revert AS. generalize (r0 :: rest) as l. clear. unfold ascending. induction l as [|x l IH]; intros S; [constructor|].
  cbn in S. inversion S as [|? ? S' F]; subst. cbn [filter]. destruct (((a <=? fst x) && (fst x <=? b))%Z); [cbn; constructor; [now apply IH|] | now apply IH].
  rewrite Forall_forall in *. intros y I. apply F. apply in_map_iff in I as (r & <- & I). apply filter_In in I as [I _]. now apply in_map.
Qed.
Lemma frame_cells (f : yearfile A) a b rows : tidy f -> read_inputfile true a b (yf_rows f) = Ok rows -> forall c y v,
  fr_get (frame_of nan (yf_names f) rows) c y = Ok v <-> (a <= y <= b)%Z /\ cell f y c v.
Proof.
  intros T R c y v. destruct (tidy_cut f a b rows T R) as [-> ND]. unfold fr_get, fr_col, frame_of. cbn [fr_cols fr_index].
  change (fun jn : nat * string => (snd jn, map (fun r : Z * list A => nth (fst jn) (snd r) nan) (filter (fun row => ((a <=? fst row) && (fst row <=? b))%Z) (yf_rows f))))
    with (fun jn : nat * string => (snd jn, column (filter (fun row => ((a <=? fst row) && (fst row <=? b))%Z) (yf_rows f)) (fst jn))).
  rewrite frame_of_get by exact (td_names f T).
  destruct (in_dec string_dec c (yf_names f)) as [I|NI].
  - apply In_nth_error in I as [j J]. rewrite (find_name _ _ (td_names f T) 0 j J). cbn [Nat.add fst key rbind]. unfold column.
    pose proof (yget_rows _ (fun r : Z * list A => nth j (snd r) nan) y ND) as Y.
    destruct (yget _ y) as [w|] eqn:E.
    + cbn [key]. split.
      * intros X. assert (w = v) by congruence. subst w. destruct (proj1 (Y v) eq_refl) as (row & IR & VE). apply filter_In in IR as [IR B]. cbn [fst] in B.
        split; [lia|]. exists row, j. split; [exact IR|]. split; [exact J|]. rewrite VE. cbn [snd]. apply nth_error_nth'. rewrite (td_cells f T y row IR). apply nth_error_Some. congruence.
      * intros (B & row & j' & IR & J' & V). f_equal. assert (j' = j) as ->.
        { apply (proj1 (NoDup_nth_error (yf_names f)) (td_names f T)); [apply nth_error_Some; congruence | congruence]. }
        enough (Some w = Some v) as X by now injection X. apply (Y v). exists row. split; [apply filter_In; split; [exact IR | cbn [fst]; lia]|].
        cbn [snd]. symmetry. now apply nth_error_nth.
    + cbn [key]. split; [discriminate|]. intros (B & row & j' & IR & J' & V). exfalso.
      assert (None = Some (nth j row nan)) as X; [|discriminate]. apply (Y (nth j row nan)). exists row. split; [apply filter_In; split; [exact IR | cbn [fst]; lia] | reflexivity].
  - rewrite (find_noname _ _ NI 0). cbn [key rbind]. split; [discriminate|]. intros (_ & row & j & _ & J & _). exfalso. now apply NI, (nth_error_In _ j).
Qed.
End Cells.

(** ** from the files of a configuration *)
Section Read.
Context {A : Type} {N : Num A}.
Variables (nan : A) (fs : files A) (object : pyval -> option (thing A)) (dir cwd : string).
Lemma input_file cfg what p t : dget cfg (what ++ "_file") = Some p -> In what ["concentrations"; "emissions"; "rf_luc"; "rf_sun"; "rf_volc_n"; "rf_volc_s"] ->
  input nan fs object dir cwd cfg what t -> exists m, dget (spec_methods cfg) what = Some m /\ read_by nan fs m (CV p) = Ok t.
Proof.
  intros P I (m & d & M & S & C). exists m. split; [exact M|].
  assert (given cfg what = true) as GV by (unfold given, dmem; now rewrite P).
  destruct S as [q q' F R | years F SV ON Y | v F D SV | E G | E G ON | E G1 G2 ON | c C' years d g r PR E G S GT GR Y]; try congruence.
  - rewrite P in F. injection F as <-. unfold file_read in R. destruct (fs_exists fs (CV p)); [subst q'; exact C|].
    exfalso. destruct R as (c & -> & IC & _). cbn in IC. destruct IC as [<-|[<-|[]]]; (repeat (destruct I as [I|I]; [discriminate|])); destruct I.
  - exfalso. destruct E as [-> | ->]; unfold given, dmem in *; rewrite P in *; discriminate.
Qed.
Lemma c102_concentrations cfg x p f a b : wf cfg -> read_data nan fs object dir cwd cfg = Ok x -> x_forc x = None -> run_window cfg a b ->
  dget cfg "concentrations_file" = Some p -> fs_years fs (CV p) = Ok f -> tidy f -> forall c y v,
  fr_get (x_conc x) c y = Ok v <-> (a <= y <= b)%Z /\ cell f y c v.
Proof.
  intros W R NF [RA RB] P F T. destruct (c102_fields _ _ _ _ _ _ _ W R) as (_ & HX & _). destruct (HX NF) as (_ & _ & _ & IC & _).
  apply (input_file cfg "concentrations" p) in IC as (m & M & B); [|exact P | now left]. injection M as <-. cbn [read_by] in B. bindx B fr E. injection B as ->.
  unfold read_years in E. rewrite F, RA, RB in E. cbn [rbind] in E. bindx E rows C. injection E as <-. now apply frame_cells.
Qed.
Lemma rename_get {V} (cols : dict V) c : dget cols "CO2_FF" = None -> dget cols "CO2_AFOLU" = None ->
  dget (rename_columns cols) c = match emission_column c with Some col => dget cols col | None => None end.
Proof.
  intros N1 N2. destruct (c58_columns cols N1 N2) as (E1 & E2 & E3 & E4 & E5). unfold emission_column. cbn [smem existsb orb].
  destruct (String.eqb_spec c "CO2") as [->|D1]; [exact E3|]. destruct (String.eqb_spec c "CO2.1") as [->|D2]; [exact E4|]. cbn [orb].
  destruct (String.eqb_spec c "CO2_FF") as [->|D3]; [exact E1|]. destruct (String.eqb_spec c "CO2_AFOLU") as [->|D4]; [exact E2|].
  apply E5. intros [?|[?|[?|[?|[]]]]]; congruence.
Qed.
Lemma c102_emissions cfg x p f a b : wf cfg -> read_data nan fs object dir cwd cfg = Ok x -> x_forc x = None -> run_window cfg a b ->
  dget cfg "emissions_file" = Some p -> fs_years fs (CV p) = Ok f -> tidy f -> ~ In "CO2_FF" (yf_names f) -> ~ In "CO2_AFOLU" (yf_names f) -> forall c y v,
  fr_get (x_emis x) c y = Ok v <-> (a <= y <= b)%Z /\ exists col, emission_column c = Some col /\ cell f y col v.
Proof.
  intros W R NF [RA RB] P F T N1 N2 c y v. destruct (c102_fields _ _ _ _ _ _ _ W R) as (_ & HX & _). destruct (HX NF) as (_ & _ & _ & _ & IC & _).
  apply (input_file cfg "emissions" p) in IC as (m & M & B); [|exact P | right; now left]. injection M as <-. cbn [read_by] in B. bindx B fr E. injection B as B. rewrite <- B. clear B.
  unfold read_years in E. rewrite F, RA, RB in E. cbn [rbind] in E. bindx E rows C. injection E as <-.
  assert (forall n, ~ In n (yf_names f) -> dget (fr_cols (frame_of nan (yf_names f) rows)) n = None) as NO.
  { intros n NI. unfold frame_of. cbn [fr_cols]. change (fun jn : nat * string => (snd jn, map (fun r : Z * list A => nth (fst jn) (snd r) nan) rows))
      with (fun jn : nat * string => (snd jn, column nan rows (fst jn))). rewrite frame_of_get by exact (td_names f T). now rewrite find_noname. }
  assert (fr_get {| fr_index := fr_index (frame_of nan (yf_names f) rows); fr_cols := rename_columns (fr_cols (frame_of nan (yf_names f) rows)) |} c y = Ok v <->
    exists col, emission_column c = Some col /\ fr_get (frame_of nan (yf_names f) rows) col y = Ok v) as EQ.
  { unfold fr_get at 1. unfold fr_col. cbn [fr_cols fr_index]. rewrite rename_get by now apply NO. destruct (emission_column c) as [col|].
    - split; [intros X; exists col; split; [reflexivity|]; unfold fr_get, fr_col; destruct (dget (fr_cols (frame_of nan (yf_names f) rows)) col); [exact X | discriminate X]|].
      intros (col' & X & G). injection X as <-. unfold fr_get, fr_col in G. destruct (dget (fr_cols (frame_of nan (yf_names f) rows)) col); [exact G | discriminate G].
    - split; [discriminate|]. intros (? & ? & _). discriminate. }
  rewrite EQ. split.
  - intros (col & EC & G). apply (frame_cells nan f a b rows T C) in G as [B G]. split; [exact B|]. now exists col.
  - intros (B & col & EC & G). exists col. split; [exact EC|]. now apply (frame_cells nan f a b rows T C).
Qed.
Lemma file_rows cfg what p l a b rows : run_window cfg a b -> (1750 <= a <= b)%Z -> In what ["rf_luc"; "rf_sun"; "rf_volc_n"; "rf_volc_s"] ->
  dget cfg (what ++ "_file") = Some p -> fs_rows fs (CV p) = Ok rows -> input nan fs object dir cwd cfg what (TRows l) ->
  List.length l = Z.to_nat (b - a + 1) /\ forall y, (a <= y <= b)%Z -> nth_error l (Z.to_nat (y - a)) = nth_error rows (Z.to_nat (y - 1750)) /\ nth_error rows (Z.to_nat (y - 1750)) <> None.
Proof.
  intros [RA RB] B I P F IN. apply (input_file cfg what p) in IN as (m & M & X); [|exact P | do 2 right; exact I].
  assert (m = MYearRow (Spec_Input.number cfg "nystart" 1750) (Spec_Input.number cfg "nyend" 2100)) as -> by (repeat (destruct I as [<-|I]; [now injection M as <-|]); destruct I).
  cbn [read_by] in X. rewrite RA, RB, F in X. cbn [rbind] in X. bindx X r E. injection X as ->.
  destruct (c56_rows a b rows) as [C _]; [lia|]. apply C in E as (LB & LL & E). rewrite Z.max_l in LB, E by lia.
  split; [exact LL|]. intros y Y. rewrite E by lia. replace (Z.to_nat (a - 1750) + Z.to_nat (y - a)) with (Z.to_nat (y - 1750)) by lia.
  split; [reflexivity|]. apply nth_error_Some. lia.
Qed.
Lemma c102_volcanic cfg x a b : wf cfg -> read_data nan fs object dir cwd cfg = Ok x -> run_window cfg a b -> (1750 <= a <= b)%Z -> forall what l p rows,
  In (what, l) [("rf_volc_n", x_vn x); ("rf_volc_s", x_vs x)] -> dget cfg (what ++ "_file") = Some p -> fs_rows fs (CV p) = Ok rows ->
  List.length l = Z.to_nat (b - a + 1) /\ forall y, (a <= y <= b)%Z -> nth_error l (Z.to_nat (y - a)) = nth_error rows (Z.to_nat (y - 1750)).
Proof.
  intros W R RW B what l p rows I P F. destruct (c102_fields _ _ _ _ _ _ _ W R) as (_ & _ & I1 & I2 & _).
  assert (In what ["rf_luc"; "rf_sun"; "rf_volc_n"; "rf_volc_s"] /\ input nan fs object dir cwd cfg what (TRows l)) as [IW IN].
  { destruct I as [E|[E|[]]]; injection E as <- <-; split; try assumption; cbn; tauto. }
  destruct (file_rows cfg what p l a b rows RW B IW P F IN) as [L E]. split; [exact L|]. intros y Y. now apply E.
Qed.
Lemma c102_first cfg x a b : wf cfg -> read_data nan fs object dir cwd cfg = Ok x -> run_window cfg a b -> (1750 <= a <= b)%Z -> forall what l p rows,
  In (what, l) [("rf_sun", x_sun x); ("rf_luc", x_luc x)] -> dget cfg (what ++ "_file") = Some p -> fs_rows fs (CV p) = Ok rows ->
  List.length l = Z.to_nat (b - a + 1) /\ forall y, (a <= y <= b)%Z -> exists v rest, nth_error l (Z.to_nat (y - a)) = Some v /\ nth_error rows (Z.to_nat (y - 1750)) = Some (v :: rest).
Proof.
  intros W R RW B what l p rows I P F. destruct (c102_fields _ _ _ _ _ _ _ W R) as (_ & _ & _ & _ & I1 & I2).
  assert (In what ["rf_luc"; "rf_sun"; "rf_volc_n"; "rf_volc_s"] /\ exists r, input nan fs object dir cwd cfg what (TRows r) /\ first_cells r l) as (IW & r & IN & FC).
  { destruct I as [E|[E|[]]]; injection E as <- <-; split; try assumption; cbn; tauto. }
  destruct (file_rows cfg what p r a b rows RW B IW P F IN) as [L E]. unfold first_cells in FC.
  assert (List.length r = List.length l) as LR by (rewrite <- (map_length (@hd_error A) r), FC; apply map_length).
  split; [congruence|]. intros y Y. destruct (E y Y) as [EY NN]. rewrite <- EY in NN |- *.
  assert (option_map (@hd_error A) (nth_error r (Z.to_nat (y - a))) = option_map Some (nth_error l (Z.to_nat (y - a)))) as H by now rewrite <- !nth_error_map, FC.
  destruct (nth_error r (Z.to_nat (y - a))) as [row|]; [|contradiction]. destruct (nth_error l (Z.to_nat (y - a))) as [v|]; [|discriminate]. cbn in H. injection H as H.
  destruct row as [|w rest]; [discriminate|]. injection H as ->. now exists v, rest.
Qed.
End Read.
