(** * P_Plots2: every drawing step, and failures (C86, C88) *)
From Coq Require Import Lia.
From Verif Require Import PyBase PyBaseFacts Num M_Gas M_Names M_Distro M_TwoLayer M_UDM M_Forcing M_Driver M_Results M_Plots
  Spec_Driver Spec_Results Spec_Plots P_Driver P_Driver2 P_Driver3 P_Driver4 P_Results P_Results2 P_Plots.

Section Steps.
Variables (var : plot_var) (unit : dict string).
(** the steps of component [c] of [n] *)
Definition step (lab : string -> list string) (n c : nat) (x : string) : list drawing :=
  (if starts c then [Open (rows_at n c) (figure_title var c)] else []) ++
  [Panel ((c - page_start c) / 4) ((c - page_start c) mod 4) x (if String.eqb x "Total_forcing" then "Total anthropogenic" else x)
    ((c - page_start c) / 4 * 4 + (c - page_start c) mod 4 + 97)] ++
  map (YLabel ((c - page_start c) / 4) ((c - page_start c) mod 4)) (lab x) ++
  (if ends n c then (if Nat.eqb (S c) n then map (Remove ((c - page_start c) / 4)) (seq (S ((c - page_start c) mod 4)) (4 - S ((c - page_start c) mod 4))) else []) ++
     [Save (figure_file var (page_start c))] else []).
Fixpoint steps (lab : string -> list string) (n c : nat) (l : list string) : list drawing :=
  match l with [] => [] | x :: r => step lab n c x ++ steps lab n (S c) r end.
Lemma label_steps f x l : units_known var unit (x :: l) -> unit_label var unit f x = Ok (map (YLabel (f_i f) (f_j f)) (unit_labels var unit x)).
Proof.
  intros [E|H]; [rewrite E; reflexivity|]. destruct (H x (or_introl eq_refl)) as [u U]. unfold unit_label, unit_labels. rewrite U. destruct var; reflexivity.
Qed.
Lemma loop_steps n : forall l l' c fig, c + List.length (l ++ l') = n -> units_known var unit l ->
  (n <= 32 \/ 36 < n \/ c + List.length l <= 32) -> (starts c = true \/ fig = Some (at_ var n c)) ->
  exists fig', (starts (c + List.length l) = true \/ fig' = Some (at_ var n (c + List.length l))) /\
  plot_panels var unit n c (l ++ l') fig =
    (steps (unit_labels var unit) n c l ++ fst (plot_panels var unit n (c + List.length l) l' fig'), snd (plot_panels var unit n (c + List.length l) l' fig')).
Proof.
  induction l as [|x l IH]; intros l' c fig EN U NR F.
  - exists fig. cbn [app List.length steps]. rewrite Nat.add_0_r. split; [exact F|]. now destruct (plot_panels _ _ _ _ _ _).
  - cbn [app List.length] in EN. cbn [app plot_panels]. fold (starts c).
    assert (FF : (if starts c then Some (open_figure var n c) else fig) = Some (at_ var n c)).
    { destruct (starts c) eqn:S; [now rewrite open_at|]. destruct F as [F|F]; [discriminate|exact F]. }
    rewrite FF. rewrite panel_at by (cbn [List.length] in NR; lia). rewrite (label_steps _ x l U).
    destruct (IH l' (S c) (Some (next_panel (at_ var n c)))) as (fig' & G & E).
    + rewrite <- EN. lia.
    + eapply units_tail, U.
    + cbn [List.length] in NR. lia.
    + destruct (starts (S c)) eqn:S; [now left|right]. f_equal. now apply next_at.
    + exists fig'. replace (c + List.length (x :: l)) with (S c + List.length l) by (cbn [List.length]; lia). split; [exact G|].
      rewrite E. cbn [steps]. unfold step. rewrite <- !app_assoc. do 2 f_equal.
      destruct (starts c) eqn:S; [rewrite open_at by exact S|]; reflexivity.
Qed.

(** ** one page *)
Lemma place k : k / 4 * 4 + k mod 4 + 97 = 97 + k.
Proof. pose proof (Nat.div_mod k 4). lia. Qed.
Fixpoint panels_of (lab : string -> list string) (k : nat) (l : list string) : list drawing :=
  match l with
  | [] => []
  | c :: r => (Panel (k / 4) (k mod 4) c (if String.eqb c "Total_forcing" then "Total anthropogenic" else c) (97 + k) :: map (YLabel (k / 4) (k mod 4)) (lab c)) ++ panels_of lab (S k) r
  end.
Lemma panels_labels : forall l k, panels_of (unit_labels var unit) k l = panels_steps var unit k l.
Proof. induction l as [|x l IH]; intros k; [reflexivity|]. cbn [panels_of panels_steps]. unfold panel_steps. now rewrite IH. Qed.
Definition before_start (c : nat) : nat := page_start c.
(** inside a page *)
Lemma inside lab n s : forall l k, (forall j, k <= j < k + List.length l -> starts (s + j) = false /\ ends n (s + j) = false /\ page_start (s + j) = s) ->
  forall r, steps lab n (s + k) (l ++ r) = panels_of lab k l ++ steps lab n (s + k + List.length l) r.
Proof.
  induction l as [|x l IH]; intros k H r; [cbn; now rewrite Nat.add_0_r|]. cbn [List.length] in *. cbn [app steps panels_of].
  destruct (H k ltac:(lia)) as (ST & E & P). unfold step. rewrite ST, E, P. replace (s + k - s) with k by lia. rewrite place, app_nil_r. cbn [app]. f_equal. rewrite <- app_assoc. f_equal.
  replace (S (s + k)) with (s + S k) by lia. rewrite IH.
  - do 2 f_equal. lia.
  - intros j J. apply H. lia.
Qed.
Lemma remove_rest m : map (Remove (m / 4)) (seq (S (m mod 4)) (4 - S (m mod 4))) = empty_places (S m).
Proof.
  unfold empty_places. pose proof (Nat.div_mod m 4 ltac:(lia)) as E. pose proof (Nat.mod_upper_bound m 4 ltac:(lia)) as B.
  destruct (m mod 4) as [|[|[|[|k]]]] eqn:M; [| | | |lia].
  - assert (S m = 4 * (m / 4) + 1) as X by lia. rewrite <- (Nat.div_unique (S m) 4 (m / 4) 1 ltac:(lia) X), <- (Nat.mod_unique (S m) 4 (m / 4) 1 ltac:(lia) X). reflexivity.
  - assert (S m = 4 * (m / 4) + 2) as X by lia. rewrite <- (Nat.div_unique (S m) 4 (m / 4) 2 ltac:(lia) X), <- (Nat.mod_unique (S m) 4 (m / 4) 2 ltac:(lia) X). reflexivity.
  - assert (S m = 4 * (m / 4) + 3) as X by lia. rewrite <- (Nat.div_unique (S m) 4 (m / 4) 3 ltac:(lia) X), <- (Nat.mod_unique (S m) 4 (m / 4) 3 ltac:(lia) X). reflexivity.
  - assert (S m = 4 * S (m / 4) + 0) as X by lia. rewrite <- (Nat.mod_unique (S m) 4 (S (m / 4)) 0 ltac:(lia) X). reflexivity.
Qed.
Lemma snoc_last {B} (l : list B) : l <> [] -> exists a x, l = a ++ [x].
Proof. intros H. destruct (exists_last H) as (a & x & E). now exists a, x. Qed.
Lemma panels_of_app lab : forall a b k, panels_of lab k (a ++ b) = panels_of lab k a ++ panels_of lab (k + List.length a) b.
Proof.
  induction a as [|x a IH]; intros b k; [cbn; now rewrite Nat.add_0_r|]. cbn [app panels_of List.length]. rewrite IH, <- app_assoc. cbn [app]. do 3 f_equal. f_equal. lia.
Qed.
(** a whole page of [l] components that starts at component [s] *)
Lemma page lab n s l r : starts s = true -> l <> [] -> page_start s = s ->
  (forall j, 0 < j < List.length l -> starts (s + j) = false) -> (forall j, j < List.length l -> page_start (s + j) = s) ->
  (forall j, S j < List.length l -> ends n (s + j) = false) -> ends n (s + List.length l - 1) = true -> (r = [] <-> s + List.length l = n) ->
  steps lab n s (l ++ r) = [Open (rows_at n s) (figure_title var s)] ++ panels_of lab 0 l ++
    (match r with [] => empty_places (List.length l) | _ => [] end) ++ [Save (figure_file var s)] ++ steps lab n (s + List.length l) r.
Proof.
  intros ST NE PS S1 P1 E1 EN R.
  assert (F : forall x l', l = x :: l' -> steps lab n s (l ++ r) =
     [Open (rows_at n s) (figure_title var s)] ++ panels_of lab 0 l ++ (match r with [] => empty_places (List.length l) | _ => [] end) ++ [Save (figure_file var s)] ++ steps lab n (s + List.length l) r).
  { intros x l' ->. destruct l' as [|y l''].
    - cbn [app steps panels_of List.length] in *. unfold step. rewrite ST, PS. replace (s + 1 - 1) with s in EN by lia. rewrite EN. replace (s - s) with 0 by lia. cbn [app]. do 2 f_equal.
      rewrite app_nil_r, <- app_assoc. f_equal. replace (s + 1) with (S s) in * by lia. destruct r as [|z r].
      + rewrite (proj1 R eq_refl), Nat.eqb_refl. reflexivity.
      + destruct (Nat.eqb_spec (S s) n) as [Q|Q]; [apply R in Q; discriminate|]. reflexivity.
    - destruct (snoc_last (y :: l'') ltac:(discriminate)) as (a & z & EZ). rewrite EZ in *. cbn [List.length] in *. rewrite app_length in *. cbn [List.length] in *.
      change ((x :: a ++ [z]) ++ r) with (x :: (a ++ [z]) ++ r). rewrite <- app_assoc. cbn [steps app]. unfold step at 1. rewrite ST, PS. 
      pose proof (E1 0 ltac:(lia)) as E0. rewrite Nat.add_0_r in E0. rewrite E0. replace (s - s) with 0 by lia. cbn [app]. f_equal. cbn [panels_of app]. f_equal. rewrite !app_nil_r, <- app_assoc. f_equal.
      replace (S s) with (s + 1) by lia. rewrite (inside lab n s a 1).
      2:{ intros j J. split; [apply S1; lia|]. split; [apply E1; lia | apply P1; lia]. }
      rewrite panels_of_app. rewrite <- app_assoc. f_equal. cbn [app steps panels_of]. unfold step.
      replace (s + 1 + List.length a) with (s + S (List.length a)) by lia. rewrite S1 by lia. rewrite P1 by lia.
      replace (s + S (List.length a + 1) - 1) with (s + S (List.length a)) in EN by lia. rewrite EN. replace (s + S (List.length a) - s) with (S (List.length a)) by lia.
      rewrite place. cbn [app]. replace (1 + List.length a) with (S (List.length a)) by lia. f_equal. rewrite app_nil_r, <- app_assoc. f_equal.
      replace (s + S (List.length a + 1)) with (S (s + S (List.length a))) in * by lia. destruct r as [|q r].
      + rewrite (proj1 R eq_refl), Nat.eqb_refl. rewrite remove_rest. rewrite <- app_assoc. do 3 f_equal. lia.
      + destruct (Nat.eqb_spec (S (s + S (List.length a))) n) as [Q|Q]; [apply R in Q; discriminate|]. reflexivity. }
  destruct l as [|x l']; [congruence|]. now apply (F x l').
Qed.
Ltac bools := repeat match goal with
  | |- (_ || _)%bool = false => apply orb_false_iff; split
  | |- Nat.eqb _ _ = false => apply Nat.eqb_neq; lia
  end.
Lemma starts_not c : c <> 0 -> c <> 16 -> c <> 32 -> starts c = false.
Proof. intros. unfold starts. bools. Qed.
Lemma ends_not n c : c <> 15 -> c <> 31 -> S c <> n -> ends n c = false.
Proof. intros. unfold ends. bools. Qed.
Lemma ends_yes n c : c = 15 \/ c = 31 \/ S c = n -> ends n c = true.
Proof. intros [-> | [-> | <-]]; unfold ends; [reflexivity | reflexivity |]. now rewrite Nat.eqb_refl, orb_true_r. Qed.
Lemma page0 c : c < 16 -> page_start c = 0.
Proof. intros. unfold page_start. destruct (Nat.ltb_spec c 16); lia. Qed.
Lemma page16 c : 16 <= c < 32 -> page_start c = 16.
Proof. intros. unfold page_start. destruct (Nat.ltb_spec c 16), (Nat.ltb_spec c 32); lia. Qed.
Lemma first_page lab n l r : l <> [] -> List.length l <= 16 -> (r <> [] -> List.length l = 16) -> n = List.length l + List.length r ->
  steps lab n 0 (l ++ r) = [Open 4 (picture_title var "1")] ++ panels_of lab 0 l ++ (match r with [] => empty_places (List.length l) | _ => [] end) ++
    [Save (figure_file var 0)] ++ steps lab n (List.length l) r.
Proof.
  intros NE L R EN. rewrite (page lab n 0 l r); cbn [Nat.add].
  - change (rows_at n 0) with 4. replace (figure_title var 0) with (picture_title var "1") by now destruct var. reflexivity.
  - reflexivity.
  - exact NE.
  - reflexivity.
  - intros j J. apply starts_not; lia.
  - intros j J. apply page0. lia.
  - intros j J. apply ends_not; lia.
  - apply ends_yes. destruct l as [|x l]; [congruence|]. destruct r; [right; right; cbn [List.length] in *; lia|]. rewrite R by discriminate. now left.
  - destruct r; cbn [List.length] in EN; split; intros; try lia; [reflexivity | discriminate].
Qed.
Lemma second_page lab n l r : l <> [] -> List.length l <= 16 -> (r <> [] -> List.length l = 16) -> n = 16 + List.length l + List.length r ->
  steps lab n 16 (l ++ r) = [Open 4 (picture_title var "2")] ++ panels_of lab 0 l ++ (match r with [] => empty_places (List.length l) | _ => [] end) ++
    [Save (figure_file var 16)] ++ steps lab n (16 + List.length l) r.
Proof.
  intros NE L R EN. rewrite (page lab n 16 l r).
  - change (rows_at n 16) with 4. replace (figure_title var 16) with (picture_title var "2") by now destruct var. reflexivity.
  - reflexivity.
  - exact NE.
  - reflexivity.
  - intros j J. apply starts_not; lia.
  - intros j J. apply page16. lia.
  - intros j J. apply ends_not; lia.
  - apply ends_yes. destruct l as [|x l]; [congruence|]. destruct r; [right; right; cbn [List.length] in *; lia|]. rewrite R by discriminate. right. now left.
  - destruct r; cbn [List.length] in EN; split; intros; try lia; [reflexivity | discriminate].
Qed.
Lemma last_page lab n l : l <> [] -> n = 32 + List.length l ->
  steps lab n 32 l = [Open (rows_for (List.length l)) (picture_title var "3")] ++ panels_of lab 0 l ++ empty_places (List.length l) ++ [Save (figure_file var 32)].
Proof.
  intros NE EN. pose proof (page lab n 32 l []) as P. rewrite app_nil_r in P. rewrite P.
  - change (rows_at n 32) with ((n - 32 + 3) / 4). replace (n - 32) with (List.length l) by lia.
    replace (figure_title var 32) with (picture_title var "3") by now destruct var. cbn [steps]. now rewrite app_nil_r.
  - reflexivity.
  - exact NE.
  - reflexivity.
  - intros j J. apply starts_not; lia.
  - intros j J. apply page_late. lia.
  - intros j J. apply ends_not; lia.
  - apply ends_yes. destruct l as [|x l]; [congruence|]. right. right. cbn [List.length] in *. lia.
  - split; intros; [lia | reflexivity].
Qed.
Lemma all_steps l : steps (unit_labels var unit) (List.length l) 0 l = expected_steps var unit l.
Proof.
  assert (PN : picture_names var = [figure_file var 0; figure_file var 16; figure_file var 32]) by now destruct var.
  unfold expected_steps. rewrite PN. cbv zeta. unfold picture_steps.
  rewrite <- !panels_labels.
  assert (E : l = firstn 16 l ++ firstn 16 (skipn 16 l) ++ skipn 32 l).
  { rewrite <- (firstn_skipn 16 l) at 1. f_equal. rewrite <- (firstn_skipn 16 (skipn 16 l)) at 1. f_equal. rewrite skipn_twice. reflexivity. }
  assert (L1 : List.length (firstn 16 l) <= 16) by (rewrite firstn_length; lia).
  assert (L2 : List.length (firstn 16 (skipn 16 l)) <= 16) by (rewrite firstn_length; lia).
  assert (L3 : firstn 16 (skipn 16 l) <> [] -> List.length (firstn 16 l) = 16).
  { intros H. destruct (skipn 16 l) as [|x s] eqn:S; [now cbn in H|]. apply (f_equal (@List.length string)) in S. rewrite skipn_length in S. cbn in S. rewrite firstn_length. lia. }
  assert (L4 : skipn 32 l <> [] -> List.length (firstn 16 (skipn 16 l)) = 16).
  { intros H. destruct (skipn 32 l) as [|x s] eqn:S; [now cbn in H|]. apply (f_equal (@List.length string)) in S. rewrite skipn_length in S. cbn in S. rewrite firstn_length, skipn_length. lia. }
  pose proof (f_equal (@List.length string) E) as LL. rewrite !app_length in LL.
  rewrite E at 2. remember (firstn 16 l) as a. remember (firstn 16 (skipn 16 l)) as b. remember (skipn 32 l) as c. remember (List.length l) as n. clear E Heqa Heqb Heqc Heqn l.
  destruct b as [|y b].
  - destruct c as [|z c]; [|exfalso; specialize (L4 ltac:(discriminate)); discriminate]. destruct a as [|x a]; [reflexivity|].
    change ((x :: a) ++ [] ++ []) with ((x :: a) ++ []). rewrite first_page; [|discriminate | exact L1 | congruence | cbn [List.length] in *; lia]. cbn [steps]. rewrite ?app_nil_r, <- ?panels_labels. reflexivity.
  - specialize (L3 ltac:(discriminate)). rewrite first_page; [|destruct a; discriminate | exact L1 | intros _; exact L3 | rewrite app_length; exact LL].
    replace (match (y :: b) ++ c with [] => empty_places (List.length a) | _ => [] end) with (@nil drawing) by reflexivity. rewrite L3.
    rewrite second_page; [|discriminate | exact L2 | exact L4 | lia].
    destruct c as [|z c].
    + cbn [steps]. rewrite <- ?panels_labels, ?app_nil_r, <- ?app_assoc. reflexivity.
    + specialize (L4 ltac:(discriminate)). rewrite L4. rewrite (last_page _ n (z :: c)); [|discriminate | lia]. rewrite <- ?panels_labels, <- ?app_assoc. reflexivity.
Qed.
End Steps.

Lemma c86_steps var unit cols first shown : select_drawn (drawn var unit) cols (first :: shown) -> In "Year" (first :: shown) ->
  labels_known var unit cols shown -> (List.length shown <= 32 \/ 36 < List.length shown) ->
  plot_output2 var unit cols = (expected_steps var unit shown, None).
Proof.
  intros S Y L N. unfold plot_output2. rewrite (kept_spec var unit cols _ S L). apply smem_In in Y. rewrite Y. cbn [tl].
  destruct (loop_steps var unit (List.length shown) shown [] 0 None) as (fig' & _ & E).
  - now rewrite app_nil_r.
  - eapply known_units, L.
  - intuition.
  - now left.
  - rewrite app_nil_r in E. rewrite E. cbn [plot_panels fst snd]. rewrite app_nil_r. now rewrite all_steps.
Qed.
Lemma panels_step var lab n c x : panels_drawn (step var lab n c x) = [x].
Proof.
  unfold step, panels_drawn. rewrite !flat_map_app.
  replace (flat_map _ (if starts c then _ else _)) with (@nil string) by (destruct (starts c); reflexivity).
  replace (flat_map _ (map (YLabel _ _) _)) with (@nil string) by (generalize (lab x); intros l; induction l; [reflexivity | exact IHl]).
  destruct (ends n c); [|reflexivity]. rewrite flat_map_app.
  replace (flat_map _ (if Nat.eqb (S c) n then _ else _)) with (@nil string); [reflexivity|].
  destruct (Nat.eqb (S c) n); [|reflexivity]. generalize (seq (S ((c - page_start c) mod 4)) (4 - S ((c - page_start c) mod 4))). intros l. induction l; [reflexivity | exact IHl].
Qed.
Lemma panels_steps_all var lab n : forall l c, panels_drawn (steps var lab n c l) = l.
Proof.
  induction l as [|x l IH]; intros c; [reflexivity|]. cbn [steps]. unfold panels_drawn. rewrite flat_map_app. fold (panels_drawn (step var lab n c x)) (panels_drawn (steps var lab n (S c) l)).
  now rewrite panels_step, IH.
Qed.
(** a component without a unit *)
Lemma c86_no_unit var unit cols first a c b : var <> PForc -> select_drawn (drawn var unit) cols (first :: a ++ c :: b) -> In "Year" (first :: a ++ c :: b) ->
  (forall x, In x a -> exists u, dget unit x = Some u) -> dget unit c = None -> (List.length a < 32 \/ 36 < List.length (a ++ c :: b)) ->
  let '(log, e) := plot_output2 var unit cols in e = Some (KeyError c) /\ panels_drawn log = a ++ [c].
Proof.
  intros NF S Y U NU LL. unfold plot_output2.
  assert (kept_columns var unit cols = Ok (first :: a ++ c :: b)) as ->.
  { destruct var; [congruence| |]; cbn [kept_columns]; f_equal; (eapply select_unique; [|exact S]); apply select_filter; intro x; cbn [drawn];
    (destruct (dget unit x) as [u|]; cbn; [|split; congruence]); (destruct (String.eqb_spec u "X"); cbn; split; congruence). }
  apply smem_In in Y. rewrite Y. cbn [tl].
  destruct (loop_steps var unit (List.length (a ++ c :: b)) a (c :: b) 0 None) as (fig' & F & E).
  - reflexivity.
  - right. exact U.
  - rewrite app_length in *. cbn [List.length] in *. lia.
  - now left.
  - cbn [Nat.add] in F, E. rewrite E. cbn [plot_panels]. fold (starts (List.length a)).
    set (n := List.length (a ++ c :: b)) in *. assert (LN : List.length a < n) by (unfold n; rewrite app_length; cbn [List.length]; lia).
    assert (FF : (if starts (List.length a) then Some (open_figure var n (List.length a)) else fig') = Some (at_ var n (List.length a))).
    { destruct (starts (List.length a)) eqn:ST; [now rewrite open_at|]. destruct F as [F|F]; [discriminate|exact F]. }
    rewrite FF. rewrite panel_at by lia.
    assert (unit_label var unit (at_ var n (List.length a)) c = Err (KeyError c)) as -> by (unfold unit_label; rewrite NU; destruct var; congruence).
    cbn [fst snd]. split; [reflexivity|]. unfold panels_drawn. rewrite flat_map_app. fold (panels_drawn (steps var (unit_labels var unit) n 0 a)). rewrite panels_steps_all. f_equal.
    rewrite flat_map_app. destruct (starts (List.length a)); reflexivity.
Qed.
Lemma c86_no_column unit cols c : In c ["NOx"; "CO"; "NMVOC"; "NH3"; "BMB_AEROS_OC"; "BMB_AEROS_BC"] -> ~ In c cols ->
  exists k, In k ["NOx"; "CO"; "NMVOC"; "NH3"; "BMB_AEROS_OC"; "BMB_AEROS_BC"] /\ ~ In k cols /\ plot_output2 PForc unit cols = ([], Some (KeyError k)).
Proof.
  intros I NI. unfold plot_output2. cbn [kept_columns]. destruct (find _ no_plot_forc) as [k|] eqn:F.
  - exists k. apply find_some in F. destruct F as [IK F]. split; [exact IK|]. split; [|reflexivity]. intros X. apply smem_In in X. rewrite X in F. discriminate.
  - exfalso. apply (find_none _ _ F) in I. apply negb_false_iff in I. now apply smem_In in I.
Qed.
Lemma c86_no_year var unit cols shown : select_drawn (drawn var unit) cols shown -> (var = PForc -> labels_known var unit cols []) -> ~ In "Year" shown ->
  plot_output2 var unit cols = ([], Some (KeyError "Year")).
Proof.
  intros S L NY. unfold plot_output2.
  assert (kept_columns var unit cols = Ok shown) as ->.
  { destruct var; [apply kept_spec; [exact S|]; exact (L eq_refl) | |]; cbn [kept_columns]; f_equal; (eapply select_unique; [|exact S]); apply select_filter; intro x; cbn [drawn];
    (destruct (dget unit x) as [u|]; cbn; [|split; congruence]); (destruct (String.eqb_spec u "X"); cbn; split; congruence). }
  destruct (smem "Year" shown) eqn:Y; [apply smem_In in Y; contradiction | reflexivity].
Qed.

Section Plot1.
Context {A : Type} {N : Num A} {H : Type} (emi2conc : H -> Z -> option (dict A) -> result H)
  (conc2forc : H -> Z -> A -> A -> result (H * (A * A * A * A)))
  (add_results : H -> bool -> dict (list A) -> result (dict (frame A))) (fl : option (list string)).
Lemma c88_lines p c t0 h0 r s : run_years (ud_state A) (ud_thermal p) c H emi2conc conc2forc fl t0 h0 r = (s, None) ->
  let '(pics, e) := plot_output1 true (l_res s) in
  e = None /\ map (fun fl => (fst fl, map fst (snd fl))) pics = expected_lines /\
  forall f lines, In (f, lines) pics -> forall n k v, In (n, k, v) lines -> dget (l_res s) k = Some (Arr v).
Proof.
  intros E. pose proof (c88_udm emi2conc conc2forc fl p c t0 h0 r s E) as C.
  destruct (run_years_complete (ud_thermal p) c ud_distinct _ _ _ _ _ _ _ E) as (tr & _ & _ & CC).
  assert (X : forall k, smem k (output_names (t_names (ud_thermal p))) = true -> has_array (l_res s) k).
  { intros k I. apply smem_In in I. destruct (CC k I) as (col & C1 & _). now exists col. }
  destruct (drawn_lines (l_res s) ohc_plot) as [d1 [E1 [F1 _]]]; [intros k I; apply X; repeat (destruct I as [<-|I]; [reflexivity|]); destruct I|].
  destruct (drawn_lines (l_res s) rib_plot) as [d2 [E2 [F2 _]]]; [intros k I; apply X; repeat (destruct I as [<-|I]; [reflexivity|]); destruct I|].
  destruct (drawn_lines (l_res s) temp_plot) as [d3 [E3 [F3 _]]]; [intros k I; apply X; repeat (destruct I as [<-|I]; [reflexivity|]); destruct I|].
  unfold plot_output1 in *. cbn [save_plots] in *. rewrite E1, E2, E3 in *. destruct C as (C1 & C2 & C3). split; [exact C1|]. split; [|exact C3].
  cbn [map fst snd]. now rewrite F1, F2, F3.
Qed.
(** a run that fails is not plotted *)
Lemma c88_failed {T} (th : thermal A T) c folder t0 h0 carbon r s e : run_years T th c H emi2conc conc2forc fl t0 h0 r = (s, Some e) ->
  let '(o, pics) := run_plotted th c emi2conc conc2forc add_results fl folder t0 h0 carbon r in o_exn o = Some e /\ o_results o = l_res s /\ pics = [].
Proof. intros E. unfold run_plotted. rewrite E. unfold run. rewrite E. repeat split. Qed.
(** with a folder, a run that completes with all its pictures is the run without plotting *)
Lemma c88_same {T} (th : thermal A T) c folder t0 h0 carbon r : snd (plot_output1 folder (l_res (fst (run_years T th c H emi2conc conc2forc fl t0 h0 r)))) = None ->
  fst (run_plotted th c emi2conc conc2forc add_results fl folder t0 h0 carbon r) = run T th c H emi2conc conc2forc add_results fl t0 h0 true carbon r.
Proof.
  unfold run_plotted. destruct (run_years _ _ _ _ _ _ _ _ _ _) as [s [e|]]; [reflexivity|]. cbn [fst].
  destruct (plot_output1 folder (l_res s)) as [pics [e|]]; cbn [snd]; [discriminate | reflexivity].
Qed.
End Plot1.
