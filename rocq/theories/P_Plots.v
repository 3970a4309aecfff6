(** * P_Plots: proofs about the plots *)
From Coq Require Import Lia FinFun.
From Verif Require Import PyBase PyBaseFacts Num M_Gas M_Names M_Distro M_TwoLayer M_UDM M_Forcing M_Driver M_Results M_Plots
  Spec_Driver Spec_Results Spec_Plots P_Driver P_Driver2 P_Driver3 P_Driver4 P_Results P_Results2.

(** ** Selection of columns *)
Lemma select_filter p d l : (forall c, p c = true <-> d c) -> select_drawn d l (filter p l).
Proof.
  intro E. induction l as [|c l IH]; cbn [filter]; [constructor|].
  destruct (p c) eqn:P; constructor; trivial; [now apply E|]. intro D. apply E in D. congruence.
Qed.
Lemma select_unique d l a b : select_drawn d l a -> select_drawn d l b -> a = b.
Proof.
  intro H. revert b. induction H; intros b K; inversion K; subst; try contradiction; f_equal; auto.
Qed.
Lemma kept_spec var unit cols shown : select_drawn (drawn var unit) cols shown ->
  labels_known var unit cols (tl shown) -> kept_columns var unit cols = Ok shown.
Proof.
  intros S L. destruct var; cbn [kept_columns labels_known] in *.
  - destruct (find _ no_plot_forc) as [c|] eqn:F.
    + apply find_some in F. destruct F as [I F]. apply L in I. apply smem_In in I. rewrite I in F. discriminate.
    + f_equal. eapply select_unique; [|exact S]. apply select_filter. intro c. cbn [drawn].
      fold no_plot_forc. rewrite <- smem_In. destruct (smem c no_plot_forc); cbn; split; congruence.
  - f_equal. eapply select_unique; [|exact S]. apply select_filter. intro c. cbn [drawn].
    destruct (dget unit c) as [u|]; cbn; [|split; congruence].
    destruct (String.eqb_spec u "X"); cbn; split; congruence.
  - f_equal. eapply select_unique; [|exact S]. apply select_filter. intro c. cbn [drawn].
    destruct (dget unit c) as [u|]; cbn; [|split; congruence].
    destruct (String.eqb_spec u "X"); cbn; split; congruence.
Qed.

(** ** The loop *)
Definition page_start (c : nat) : nat := if Nat.ltb c 16 then 0 else if Nat.ltb c 32 then 16 else 32.
Definition rows_at (n c : nat) : nat := if Nat.ltb c 32 then 4 else (n - 32 + 3) / 4.
Definition at_ (var : plot_var) (n c : nat) : figure :=
  {| f_rows := rows_at n c; f_name := figure_file var (page_start c); f_i := (c - page_start c) / 4; f_j := (c - page_start c) mod 4 |}.
Definition starts (c : nat) : bool := Nat.eqb c 0 || Nat.eqb c 16 || Nat.eqb c 32.
Definition ends (n c : nat) : bool := Nat.eqb c 15 || Nat.eqb c 31 || Nat.eqb (S c) n.

Lemma open_at var n c : starts c = true -> open_figure var n c = at_ var n c.
Proof.
  unfold starts. intro H. apply orb_true_iff in H. destruct H as [H|H]; [apply orb_true_iff in H; destruct H as [H|H]|];
  apply Nat.eqb_eq in H; subst c; reflexivity.
Qed.
Lemma next_at var n c : starts (S c) = false -> next_panel (at_ var n c) = at_ var n (S c).
Proof.
  unfold starts. intro H. apply orb_false_iff in H. destruct H as [H H32]. apply orb_false_iff in H. destruct H as [H0 H16].
  apply Nat.eqb_neq in H0, H16, H32.
  assert (PS : page_start (S c) = page_start c /\ page_start c <= c).
  { unfold page_start. destruct (Nat.ltb_spec c 16), (Nat.ltb_spec (S c) 16), (Nat.ltb_spec c 32), (Nat.ltb_spec (S c) 32); lia. }
  assert (RS : rows_at n (S c) = rows_at n c).
  { unfold rows_at. destruct (Nat.ltb_spec c 32), (Nat.ltb_spec (S c) 32); lia. }
  destruct PS as [PS LE]. unfold at_. rewrite PS, RS. unfold next_panel. cbn [f_rows f_name f_i f_j].
  replace (S c - page_start c) with (S (c - page_start c)) by lia. remember (c - page_start c) as k.
  pose proof (Nat.div_mod k 4 ltac:(lia)) as E. pose proof (Nat.mod_upper_bound k 4 ltac:(lia)) as B.
  destruct (Nat.eqb_spec (S (k mod 4)) 4) as [F|F].
  - assert (S k = 4 * S (k / 4) + 0) as X by lia.
    rewrite <- (Nat.mod_unique (S k) 4 (S (k / 4)) 0 ltac:(lia) X). rewrite <- (Nat.div_unique (S k) 4 (S (k / 4)) 0 ltac:(lia) X). reflexivity.
  - assert (S k = 4 * (k / 4) + S (k mod 4)) as X by lia.
    rewrite <- (Nat.div_unique (S k) 4 (k / 4) (S (k mod 4)) ltac:(lia) X), <- (Nat.mod_unique (S k) 4 (k / 4) (S (k mod 4)) ltac:(lia) X).
    reflexivity.
Qed.
Lemma panel_at var n c x : c < n -> (n <= 32 \/ 36 < n \/ c < 32) ->
  panel (at_ var n c) x = Ok (Panel ((c - page_start c) / 4) ((c - page_start c) mod 4) x
    (if String.eqb x "Total_forcing" then "Total anthropogenic" else x) ((c - page_start c) / 4 * 4 + (c - page_start c) mod 4 + 97)).
Proof.
  intros L H. unfold panel. replace (Nat.eqb (f_rows (at_ var n c)) 1 || Nat.leb (f_rows (at_ var n c)) (f_i (at_ var n c))) with false; [reflexivity|].
  symmetry. unfold at_. cbn [f_rows f_i]. unfold rows_at, page_start.
  destruct (Nat.ltb_spec c 32) as [C|C].
  - destruct (Nat.ltb_spec c 16); cbn [Nat.eqb orb]; apply Nat.leb_gt; apply Nat.div_lt_upper_bound; lia.
  - destruct (Nat.ltb_spec c 16); [lia|]. apply orb_false_iff. split.
    + apply Nat.eqb_neq. intro E. assert (2 <= (n - 32 + 3) / 4); [|lia]. apply Nat.div_le_lower_bound; lia.
    + apply Nat.leb_gt. apply Nat.lt_le_trans with (S ((c - 32) / 4)); [lia|].
      apply Nat.div_le_lower_bound; [lia|]. pose proof (Nat.mul_div_le (c - 32) 4 ltac:(lia)). lia.
Qed.

Fixpoint expect (var : plot_var) (n c rows : nat) (cur : list (nat * nat * string)) (l : list string) :=
  match l with
  | [] => []
  | x :: r =>
      let rows := if starts c then rows_at n c else rows in
      let cur := (if starts c then [] else cur) ++ [((c - page_start c) / 4, (c - page_start c) mod 4, x)] in
      if ends n c then (rows, figure_file var (page_start c), cur) :: expect var n (S c) rows cur r
      else expect var n (S c) rows cur r
  end.
Lemma pictures_app rows cur l m :
  (forall x, In x l -> match x with YLabel _ _ _ | Remove _ _ => True | _ => False end) ->
  pictures_from rows cur (l ++ m) = pictures_from rows cur m.
Proof.
  induction l as [|x l IH]; intro H; [reflexivity|]. cbn [app].
  pose proof (H x (or_introl eq_refl)) as X. destruct x; try contradiction; cbn [pictures_from]; apply IH; intros y I; apply H; right; exact I.
Qed.
Definition units_known (var : plot_var) (unit : dict string) (l : list string) : Prop :=
  var = PForc \/ forall c, In c l -> exists u, dget unit c = Some u.
Lemma label_ok var unit f x l : units_known var unit (x :: l) ->
  exists ls, unit_label var unit f x = Ok ls /\ forall y, In y ls -> match y with YLabel _ _ _ | Remove _ _ => True | _ => False end.
Proof.
  intros [->|H]; [exists []; split; [reflexivity|intros y []]|].
  destruct (H x (or_introl eq_refl)) as [u U].
  destruct var; cbn [unit_label]; rewrite ?U; eexists; (split; [reflexivity|]); intros y I; cbn in I; intuition (subst; trivial).
Qed.
Lemma units_tail var unit x l : units_known var unit (x :: l) -> units_known var unit l.
Proof. intros [E|H]; [left; exact E|right; intros c I; apply H; right; exact I]. Qed.
(** the loop over the components [l], of which none is beyond the second picture if the third has one row *)
Lemma loop_pictures var unit n : forall l l' c rows cur fig, c + List.length (l ++ l') = n -> units_known var unit l ->
  (n <= 32 \/ 36 < n \/ c + List.length l <= 32) -> (starts c = true \/ fig = Some (at_ var n c)) ->
  exists log fig' rows' cur',
    plot_panels var unit n c (l ++ l') fig =
      (log ++ fst (plot_panels var unit n (c + List.length l) l' fig'), snd (plot_panels var unit n (c + List.length l) l' fig')) /\
    (starts (c + List.length l) = true \/ fig' = Some (at_ var n (c + List.length l))) /\
    forall more, pictures_from rows cur (log ++ more) = expect var n c rows cur l ++ pictures_from rows' cur' more.
Proof.
  induction l as [|x l IH]; intros l' c rows cur fig EN U NR F.
  - exists [], fig, rows, cur. cbn [app List.length expect]. rewrite Nat.add_0_r. split; [destruct (plot_panels _ _ _ _ _ _); reflexivity|].
    split; [exact F|reflexivity].
  - cbn [app List.length] in EN. cbn [app plot_panels]. fold (starts c).
    assert (FF : (if starts c then Some (open_figure var n c) else fig) = Some (at_ var n c)).
    { destruct (starts c) eqn:S; [now rewrite open_at|]. destruct F as [F|F]; [discriminate|exact F]. }
    rewrite FF. rewrite panel_at by (cbn [List.length] in NR; lia).
    destruct (label_ok var unit (at_ var n c) x l U) as [ls [LE LO]]. rewrite LE.
    set (rows1 := if starts c then rows_at n c else rows).
    set (cur1 := (if starts c then [] else cur) ++ [((c - page_start c) / 4, (c - page_start c) mod 4, x)]).
    destruct (IH l' (S c) rows1 cur1 (Some (next_panel (at_ var n c)))) as [log [fig' [rows' [cur' [E [G P]]]]]].
    + rewrite <- EN. lia.
    + eapply units_tail, U.
    + cbn [List.length] in NR. lia.
    + destruct (starts (S c)) eqn:S; [now left|right]. f_equal. now apply next_at.
    + rewrite E. replace (c + List.length (x :: l)) with (S c + List.length l) by (cbn [List.length]; lia).
      eexists ((if starts c then [Open (f_rows (open_figure var n c)) (figure_title var c)] else []) ++ [_] ++ ls ++ close_figure n c (at_ var n c) ++ log),
        fig', rows', cur'. split; [|split; [exact G|]].
      * rewrite <- !app_assoc. reflexivity.
      * intro more. rewrite <- !app_assoc. cbn [expect]. fold rows1 cur1.
        assert (B : forall z, pictures_from rows cur ((if starts c then [Open (f_rows (open_figure var n c)) (figure_title var c)] else []) ++
             [Panel ((c - page_start c) / 4) ((c - page_start c) mod 4) x
                (if String.eqb x "Total_forcing" then "Total anthropogenic" else x) ((c - page_start c) / 4 * 4 + (c - page_start c) mod 4 + 97)] ++ z)
           = pictures_from rows1 cur1 z).
        { intro z. unfold rows1, cur1. destruct (starts c) eqn:S; [rewrite open_at by exact S|]; reflexivity. }
        rewrite B. rewrite pictures_app by exact LO. unfold close_figure. fold (ends n c).
        destruct (ends n c) eqn:En; [|apply P].
        rewrite <- app_assoc. rewrite pictures_app.
        -- cbn [app pictures_from]. f_equal. apply P.
        -- intros y I. destruct (Nat.eqb (S c) n); [|destruct I]. apply in_map_iff in I. destruct I as [j [<- _]]. exact I.
Qed.

(** ** The pages *)
Lemma expect_app var n : forall l r c rows cur, exists rows' cur',
  expect var n c rows cur (l ++ r) = expect var n c rows cur l ++ expect var n (c + List.length l) rows' cur' r.
Proof.
  induction l as [|x l IH]; intros r c rows cur.
  - exists rows, cur. cbn [app List.length]. now rewrite Nat.add_0_r.
  - cbn [app expect List.length].
    destruct (IH r (S c) (if starts c then rows_at n c else rows)
      ((if starts c then [] else cur) ++ [((c - page_start c) / 4, (c - page_start c) mod 4, x)])) as [rows' [cur' E]].
    exists rows', cur'. rewrite E. replace (S c + List.length l) with (c + S (List.length l)) by lia.
    destruct (ends n c); reflexivity.
Qed.
Lemma combine_seq_S {B} k (x : B) l : combine (seq k (S (List.length l))) (x :: l) = (k, x) :: combine (seq (S k) (List.length l)) l.
Proof. reflexivity. Qed.
Lemma starts_late c : 32 < c -> starts c = false.
Proof. intro H. unfold starts. repeat (apply orb_false_iff; split); apply Nat.eqb_neq; lia. Qed.
Lemma ends_late n c : 32 <= c -> ends n c = Nat.eqb (S c) n.
Proof.
  intro H. unfold ends. replace (Nat.eqb c 15) with false by (symmetry; apply Nat.eqb_neq; lia).
  replace (Nat.eqb c 31) with false by (symmetry; apply Nat.eqb_neq; lia). reflexivity.
Qed.
Lemma page_late c : 32 <= c -> page_start c = 32.
Proof. intro H. unfold page_start. destruct (Nat.ltb_spec c 16), (Nat.ltb_spec c 32); lia. Qed.
Lemma third_page var n rows : forall r c cur x, 32 < S c -> c + S (List.length r) = n -> 32 <= c ->
  expect var n (S c) rows (cur ++ [((c - 32) / 4, (c - 32) mod 4, x)]) r =
  match r with [] => [] | _ => [(rows, figure_file var 32, cur ++ map (fun kc => (fst kc / 4, fst kc mod 4, snd kc)) (combine (seq (c - 32) (S (List.length r))) (x :: r)))] end.
Proof.
  induction r as [|y r IH]; intros c cur x H E L; [reflexivity|].
  cbn [expect List.length] in *. rewrite starts_late by exact H. rewrite ends_late, page_late by lia.
  cbn [seq combine map fst snd]. replace (S (c - 32)) with (S c - 32) by lia.
  rewrite (IH (S c) (cur ++ [((c - 32) / 4, (c - 32) mod 4, x)]) y) by lia.
  destruct r as [|z r].
  - replace (Nat.eqb (S (S c)) n) with true by (symmetry; apply Nat.eqb_eq; cbn in E; lia).
    cbn [List.length seq combine map fst snd]. rewrite <- app_assoc. reflexivity.
  - cbn [seq combine map fst snd]. replace (Nat.eqb (S (S c)) n) with false by (symmetry; apply Nat.eqb_neq; cbn [List.length] in E; lia).
    rewrite <- app_assoc. reflexivity.
Qed.
Lemma third var n rows cur r : 32 + List.length r = n -> r <> [] ->
  expect var n 32 rows cur r = [(rows_at n 32, figure_file var 32, layout r)].
Proof.
  destruct r as [|x r]; [congruence|]. intros E _. cbn [expect List.length] in *.
  replace (starts 32) with true by reflexivity. rewrite ends_late, page_late by lia.
  change ([] ++ [((32 - 32) / 4, (32 - 32) mod 4, x)]) with (@nil (nat * nat * string) ++ [((32 - 32) / 4, (32 - 32) mod 4, x)]).
  rewrite third_page by lia.
  destruct r as [|y r].
  - replace (Nat.eqb 33 n) with true by (symmetry; apply Nat.eqb_eq; cbn in E; lia). reflexivity.
  - replace (Nat.eqb 33 n) with false by (symmetry; apply Nat.eqb_neq; cbn [List.length] in E; lia). reflexivity.
Qed.
Definition fits (p : nat * string * list (nat * nat * string)) : Prop :=
  forall i j c, In (i, j, c) (snd p) -> i < fst (fst p) /\ j < 4.
Definition fitsb (p : nat * string * list (nat * nat * string)) : bool :=
  forallb (fun x => Nat.ltb (fst (fst x)) (fst (fst p)) && Nat.ltb (snd (fst x)) 4) (snd p).
Lemma fitsb_fits p : fitsb p = true -> fits p.
Proof.
  intros H i j c I. unfold fitsb in H. rewrite forallb_forall in H. specialize (H _ I). cbn in H.
  apply andb_true_iff in H. destruct H as [H K]. split; [now apply Nat.ltb_lt|now apply Nat.ltb_lt].
Qed.
Lemma fits_layout rows f l : List.length l <= 4 * rows -> fits (rows, f, layout l).
Proof.
  intros H i j c I. cbn [fst snd] in *. unfold layout in I. apply in_map_iff in I. destruct I as [[k x] [E I]].
  apply in_combine_l in I. apply in_seq in I. 
  pose proof (f_equal (fun z => fst (fst z)) E) as E1. pose proof (f_equal (fun z => snd (fst z)) E) as E2. cbn [fst snd] in E1, E2. rewrite <- E1, <- E2. split.
  - apply Nat.div_lt_upper_bound; lia.
  - apply Nat.mod_upper_bound. lia.
Qed.
Lemma two_pages var (l : list string) : List.length l <= 32 ->
  map file_and_panels (expect var (List.length l) 0 0 [] l) = expected_pictures var l /\ forallb fitsb (expect var (List.length l) 0 0 [] l) = true.
Proof.
  intro L. destruct var.
  all: do 33 (destruct l as [|? l]; [vm_compute; split; reflexivity|]).
  all: exfalso; cbn in L; lia.
Qed.
Lemma full_pages var m (l : list string) : List.length l = 32 ->
  map file_and_panels (expect var (32 + m) 0 0 [] l) = expected_pictures var l /\ forallb fitsb (expect var (32 + m) 0 0 [] l) = true.
Proof.
  intro L. do 32 (destruct l as [|? l]; [discriminate L|]). destruct l; [|discriminate L]. clear L.
  destruct var, m; split; vm_compute; reflexivity.
Qed.
Lemma forallb_fits l : forallb fitsb l = true -> forall p, In p l -> fits p.
Proof. intros H p I. rewrite forallb_forall in H. apply fitsb_fits, H, I. Qed.
Lemma pages_three l r : List.length l = 32 -> r <> [] -> pages (l ++ r) = pages l ++ [r].
Proof.
  intros L R. destruct r as [|x r]; [congruence|].
  do 32 (destruct l as [|? l]; [discriminate L|]). destruct l; [reflexivity|discriminate L].
Qed.
Lemma pages_two l : List.length l = 32 -> List.length (pages l) = 2.
Proof.
  intro L. do 32 (destruct l as [|? l]; [discriminate L|]). destruct l; [reflexivity|discriminate L].
Qed.
Lemma all_pages var (l : list string) : 
  map file_and_panels (expect var (List.length l) 0 0 [] l) = expected_pictures var l /\ forall p, In p (expect var (List.length l) 0 0 [] l) -> fits p.
Proof.
  destruct (Nat.le_gt_cases (List.length l) 32) as [L|L].
  - destruct (two_pages var l L) as [E F]. split; [exact E|apply forallb_fits, F].
  - rewrite <- (firstn_skipn 32 l). set (a := firstn 32 l). set (b := skipn 32 l).
    assert (LA : List.length a = 32) by (unfold a; rewrite firstn_length; lia).
    assert (LB : List.length b = List.length l - 32) by apply skipn_length.
    assert (NB : b <> []) by (intro E; rewrite E in LB; cbn in LB; lia).
    rewrite app_length, LA. destruct (expect_app var (32 + List.length b) a b 0 0 []) as [rows [cur E]]. rewrite E, LA. change (0 + 32) with 32.
    rewrite third by (reflexivity || exact NB). destruct (full_pages var (List.length b) a LA) as [EA FA]. split.
    + rewrite map_app.  rewrite EA. unfold expected_pictures. rewrite pages_three by assumption.
      pose proof (pages_two a LA) as P2. destruct (pages a) as [|p1 [|p2 [|]]]; try discriminate P2.
      destruct var; reflexivity.
    + intros p I. apply in_app_or in I. destruct I as [I|[<-|[]]]; [exact (forallb_fits _ FA p I)|].
      apply fits_layout. change (rows_at (32 + List.length b) 32) with ((32 + List.length b - 32 + 3) / 4).
      replace (32 + List.length b - 32 + 3) with (List.length b + 3) by lia.
      pose proof (Nat.div_mod (List.length b + 3) 4 ltac:(lia)). pose proof (Nat.mod_upper_bound (List.length b + 3) 4 ltac:(lia)). lia.
Qed.

(** ** C86 *)
Lemma known_units var unit cols shown : labels_known var unit cols shown -> units_known var unit shown.
Proof. destruct var; cbn; intro H; [now left|now right|now right]. Qed.
Lemma c86_pictures var unit cols first shown : select_drawn (drawn var unit) cols (first :: shown) -> In "Year" (first :: shown) ->
  labels_known var unit cols shown -> (List.length shown <= 32 \/ 36 < List.length shown) ->
  snd (plot_output2 var unit cols) = None /\
  map file_and_panels (pictures (fst (plot_output2 var unit cols))) = expected_pictures var shown /\
  forall p, In p (pictures (fst (plot_output2 var unit cols))) -> fits p.
Proof.
  intros S Y L N. unfold plot_output2. rewrite (kept_spec var unit cols _ S L).
  apply smem_In in Y. rewrite Y. cbn [tl].
  destruct (loop_pictures var unit (List.length shown) shown [] 0 0 [] None) as [log [fig' [rows' [cur' [E [_ P]]]]]].
  - now rewrite app_nil_r.
  - eapply known_units, L.
  - intuition.
  - now left.
  - rewrite app_nil_r in E. rewrite E. cbn [plot_panels fst snd]. split; [reflexivity|].
    unfold pictures. rewrite P. cbn [pictures_from]. rewrite app_nil_r. apply all_pages.
Qed.
Lemma c86_lost var unit cols first shown : select_drawn (drawn var unit) cols (first :: shown) -> In "Year" (first :: shown) ->
  labels_known var unit cols shown -> 32 < List.length shown <= 36 ->
  snd (plot_output2 var unit cols) = Some IndexError /\
  map file_and_panels (pictures (fst (plot_output2 var unit cols))) = expected_pictures var (firstn 32 shown).
Proof.
  intros S Y L [N1 N2]. unfold plot_output2. rewrite (kept_spec var unit cols _ S L).
  apply smem_In in Y. rewrite Y. cbn [tl]. pose proof (known_units _ _ _ _ L) as U. clear S Y L cols first.
  assert (LA : List.length (firstn 32 shown) = 32) by (rewrite firstn_length; lia).
  assert (LB : List.length (skipn 32 shown) = List.length shown - 32) by apply skipn_length.
  assert (SP : shown = firstn 32 shown ++ skipn 32 shown) by (symmetry; apply firstn_skipn).
  remember (firstn 32 shown) as a. remember (skipn 32 shown) as b. clear Heqa Heqb. subst shown. rewrite app_length, LA in *.
  destruct (loop_pictures var unit (32 + List.length b) a b 0 0 [] None) as [log [fig' [rows' [cur' [E [_ P]]]]]].
  - now rewrite app_length, LA.
  - destruct U as [U|U]; [now left|right]. intros c I. apply U. apply in_or_app. now left.
  - right. right. cbn. lia.
  - now left.
  - rewrite E, LA. destruct b as [|x b]; [cbn in N1; lia|]. change (0 + 32) with 32. cbn [plot_panels]. cbn [Nat.eqb orb].
    rewrite open_at by reflexivity. unfold panel.
    replace (f_rows (at_ var (32 + List.length (x :: b)) 32)) with 1.
    + cbn [Nat.eqb orb fst snd]. split; [reflexivity|]. unfold pictures. rewrite P. cbn [pictures_from]. rewrite app_nil_r.
      exact (proj1 (full_pages var (List.length (x :: b)) a LA)).
    + change (f_rows (at_ var (32 + List.length (x :: b)) 32)) with ((32 + List.length (x :: b) - 32 + 3) / 4). apply Nat.div_unique with (List.length b); cbn [List.length] in *; lia.
Qed.

(** the columns of the pictures *)
Lemma layout_columns l : map snd (layout l) = l.
Proof.
  unfold layout. rewrite map_map. generalize 0. induction l as [|x l IH]; intro k; [reflexivity|]. cbn. f_equal. apply IH.
Qed.
Lemma skipn_twice {B} a : forall b (l : list B), skipn a (skipn b l) = skipn (b + a) l.
Proof. induction b as [|b IH]; intro l; [reflexivity|]. destruct l as [|x l]; [now rewrite !skipn_nil|]. exact (IH l). Qed.
Lemma pages_concat l : List.concat (pages l) = l.
Proof.
  assert (E : l = firstn 16 l ++ firstn 16 (skipn 16 l) ++ skipn 32 l).
  { rewrite <- (firstn_skipn 16 l) at 1. f_equal. rewrite <- (firstn_skipn 16 (skipn 16 l)) at 1. f_equal. 
    rewrite skipn_twice. reflexivity. }
  unfold pages. rewrite E at 4. destruct (firstn 16 l), (firstn 16 (skipn 16 l)), (skipn 32 l); cbn; rewrite ?app_nil_r; reflexivity.
Qed.
Lemma pages_short l : List.length (pages l) <= 3.
Proof. unfold pages. destruct (firstn 16 l), (firstn 16 (skipn 16 l)), (skipn 32 l); cbn; lia. Qed.
Lemma expected_columns var shown : flat_map (fun x => map snd (snd x)) (expected_pictures var shown) = shown.
Proof.
  unfold expected_pictures. rewrite <- (pages_concat shown) at 2. pose proof (pages_short shown) as L.
  destruct (pages shown) as [|a [|b [|c [|d l]]]]; destruct var; cbn [picture_names map combine flat_map List.concat snd List.length] in *; rewrite ?layout_columns, ?app_nil_r; try reflexivity; lia.
Qed.
Lemma columns_pictures p : columns_drawn p = flat_map (fun x => map snd (snd x)) (map file_and_panels p).
Proof. unfold columns_drawn. induction p as [|x p IH]; [reflexivity|]. cbn. now rewrite IH. Qed.
Lemma layout_places l : NoDup (map fst (layout l)).
Proof.
  unfold layout. rewrite map_map. cbn [fst].
  replace (map (fun x : nat * string => (fst x / 4, fst x mod 4)) (combine (seq 0 (List.length l)) l))
    with (map (fun k => (k / 4, k mod 4)) (map fst (combine (seq 0 (List.length l)) l))) by (rewrite map_map; reflexivity).
  assert (E : map fst (combine (seq 0 (List.length l)) l) = seq 0 (List.length l)).
  { generalize 0. induction l as [|x l IH]; intro k; [reflexivity|]. cbn. f_equal. apply IH. }
  rewrite E. apply Injective_map_NoDup; [|apply seq_NoDup].
  intros a b H. pose proof (f_equal fst H) as H1. pose proof (f_equal snd H) as H2. cbn [fst snd] in H1, H2.
  rewrite (Nat.div_mod a 4), (Nat.div_mod b 4) by lia. congruence.
Qed.
Lemma in_combine_layouts var shown p : In p (expected_pictures var shown) -> exists l, snd p = layout l.
Proof.
  unfold expected_pictures. destruct p as [f l]. intro I. apply in_combine_r in I. apply in_map_iff in I.
  destruct I as [x [E _]]. exists x. now symmetry.
Qed.
Lemma c86 var unit cols first shown : select_drawn (drawn var unit) cols (first :: shown) -> In "Year" (first :: shown) ->
  labels_known var unit cols shown -> (List.length shown <= 32 \/ 36 < List.length shown) ->
  let '(log, e) := plot_output2 var unit cols in
  e = None /\ map file_and_panels (pictures log) = expected_pictures var shown /\ columns_drawn (pictures log) = shown /\
  forall p, In p (pictures log) -> well_placed p.
Proof.
  intros S Y L N. destruct (c86_pictures var unit cols first shown S Y L N) as [E [P F]].
  destruct (plot_output2 var unit cols) as [log e]. cbn [fst snd] in *. split; [exact E|]. split; [exact P|]. split.
  - rewrite columns_pictures, P. apply expected_columns.
  - intros p I. split; [exact (F p I)|]. apply (in_map file_and_panels) in I. rewrite P in I.
    destruct (in_combine_layouts _ _ _ I) as [l El]. cbn in El. rewrite El. apply layout_places.
Qed.
Lemma c86_lost' var unit cols first shown : select_drawn (drawn var unit) cols (first :: shown) -> In "Year" (first :: shown) ->
  labels_known var unit cols shown -> 32 < List.length shown <= 36 ->
  let '(log, e) := plot_output2 var unit cols in
  e = Some IndexError /\ columns_drawn (pictures log) = firstn 32 shown.
Proof.
  intros S Y L N. destruct (c86_lost var unit cols first shown S Y L N) as [E P].
  destruct (plot_output2 var unit cols) as [log e]. cbn [fst snd] in *. split; [exact E|].
  rewrite columns_pictures, P. apply expected_columns.
Qed.

(** ** C87 *)
Section Frames.
Context {A : Type} {N : Num A}.
Lemma c87 (p : hpam A) gt erf st f cs last shown : wf gt -> wf (fr_cols erf) ->
  (forall k, In k reserved -> ~ In k (dkeys gt) /\ ~ In k (dkeys (fr_cols erf))) ->
  dkeys (s_forc st) = dkeys (s_forc (reset_arrays p gt erf)) -> dkeys (fr_cols erf) = cs ++ [last] -> forcing_frame p st erf = Ok f ->
  drawn PForc [] last -> labels_known PForc [] (dkeys (fr_cols f)) [] ->
  select_drawn (drawn PForc []) (tl (dkeys (fr_cols f))) shown -> (List.length shown <= 32 \/ 36 < List.length shown) ->
  let '(log, e) := plot_output2 PForc [] (dkeys (fr_cols f)) in
  e = None /\ In "Year" (columns_drawn (pictures log)) /\ ~ In (forcing_label last) (columns_drawn (pictures log)).
Proof.
  intros W1 W2 R D E F DL LK SD LN. destruct (c74_run p gt erf st f cs last W1 W2 R D E F) as [_ [K [ND _]]].
  rewrite K in *. unfold forcing_columns in *. cbn [map tl] in *.
  assert (DL' : drawn PForc [] (forcing_label last)).
  { unfold forcing_label. destruct (String.eqb_spec last "SO2"); [|exact DL]. cbn. intuition discriminate. }
  assert (Y : In "Year" shown).
  { assert (forall l m, select_drawn (drawn PForc []) l m -> In "Year" l -> In "Year" m) as G.
    { clear. induction 1 as [|c l m D H IH|c l m D H IH]; intro I; [exact I| |].
      - destruct I as [->|I]; [now left|right; auto].
      - destruct I as [->|I]; [|auto]. exfalso. apply D. cbn. intuition discriminate. }
    apply (G _ _ SD). apply in_map_iff. exists "Year". split; [reflexivity|]. apply in_or_app. right. now left. }
  assert (NL : ~ In (forcing_label last) shown).
  { assert (forall d l m (x : string), select_drawn d l m -> In x m -> In x l) as G.
    { clear. induction 1 as [|c l m D H IH|c l m D H IH]; intro I; [exact I| |right; auto].
      destruct I as [->|I]; [now left|right; auto]. }
    intro I. apply (G _ _ _ _ SD) in I. inversion ND; contradiction. }
  pose proof (c86 PForc [] _ (forcing_label last) shown (sd_take _ _ _ _ DL' SD) (or_intror Y) LK LN) as C.
  destruct (plot_output2 PForc [] _) as [log e]. destruct C as [C1 [_ [C3 _]]]. rewrite C3. auto.
Qed.
End Frames.

(** ** C88 *)
Section Plot1.
Context {A : Type} {N : Num A} {H : Type} (emi2conc : H -> Z -> option (dict A) -> result H)
  (conc2forc : H -> Z -> A -> A -> result (H * (A * A * A * A)))
  (add_results : H -> bool -> dict (list A) -> result (dict (frame A))) (fl : option (list string)).
Lemma drawn_lines (r : results A) (l : list (nat * string)) : (forall k, In k (map snd l) -> has_array r k) ->
  exists d, mapM (fun nk => do v <- arr_of (snd nk) r; Ok (nk, v)) l = Ok d /\ map fst d = l /\
    forall nk v, In (nk, v) d -> dget r (snd nk) = Some (Arr v).
Proof.
  induction l as [|[n k] l IH]; intro Hk; [exists []; repeat split; intros ? ? []|].
  destruct (Hk k (or_introl eq_refl)) as [v V]. destruct IH as [d [E [F G]]]; [intros k' I; apply Hk; now right|].
  exists ((n, k, v) :: d). cbn [mapM snd]. unfold arr_of at 1. rewrite V. cbn [rbind]. rewrite E. cbn [rbind map fst]. rewrite F.
  split; [reflexivity|]. split; [reflexivity|]. intros nk w [I|I]; [injection I as <- <-; exact V|exact (G _ _ I)].
Qed.
Lemma c88_udm p c t0 h0 r s : run_years (ud_state A) (ud_thermal p) c H emi2conc conc2forc fl t0 h0 r = (s, None) ->
  let '(pics, e) := plot_output1 true (l_res s) in
  e = None /\ map fst pics = ["ohc.png"; "rib.png"; "temp.png"] /\
  forall f lines, In (f, lines) pics -> forall n k v, In (n, k, v) lines -> dget (l_res s) k = Some (Arr v).
Proof.
  intros E. destruct (run_years_complete (ud_thermal p) c ud_distinct _ _ _ _ _ _ _ E) as (tr & _ & _ & C).
  assert (X : forall k, smem k (output_names (t_names (ud_thermal p))) = true -> has_array (l_res s) k).
  { intros k I. apply smem_In in I. destruct (C k I) as (col & C1 & _). now exists col. }
  destruct (drawn_lines (l_res s) ohc_plot) as [d1 [E1 [F1 G1]]]; [intros k I; apply X; repeat (destruct I as [<-|I]; [reflexivity|]); destruct I|].
  destruct (drawn_lines (l_res s) rib_plot) as [d2 [E2 [F2 G2]]]; [intros k I; apply X; repeat (destruct I as [<-|I]; [reflexivity|]); destruct I|].
  destruct (drawn_lines (l_res s) temp_plot) as [d3 [E3 [F3 G3]]]; [intros k I; apply X; repeat (destruct I as [<-|I]; [reflexivity|]); destruct I|].
  unfold plot_output1. cbn [save_plots]. rewrite E1, E2, E3. split; [reflexivity|]. split; [reflexivity|].
  intros f lines I n k v J. cbn [In] in I. destruct I as [I|[I|[I|[]]]]; injection I as <- <-.
  - exact (G1 (n, k) v J).
  - exact (G2 (n, k) v J).
  - exact (G3 (n, k) v J).
Qed.
Lemma c88_two_layer p c t0 h0 carbon r s : dget r "RIB_N" = None ->
  run_years (tl_state A) (tl_thermal p) c H emi2conc conc2forc fl t0 h0 r = (s, None) ->
  let '(o, pics) := run_plotted (tl_thermal p) c emi2conc conc2forc add_results fl true t0 h0 carbon r in
  o_exn o = Some (KeyError "RIB_N") /\ o_results o = l_res s /\ map fst pics = ["ohc.png"].
Proof.
  intros D E. destruct (run_years_complete (tl_thermal p) c tl_distinct _ _ _ _ _ _ _ E) as (tr & _ & _ & C).
  assert (X : forall k, smem k (output_names tl_names) = true -> has_array (l_res s) k).
  { intros k I. apply smem_In in I. destruct (C k I) as (col & C1 & _). now exists col. }
  assert (NR : dget (l_res s) "RIB_N" = None).
  { unfold run_years in E. rewrite (years_frame (tl_thermal p) c tl_distinct _ _ _ _ _ _ _ "RIB_N" E).
    - cbn [l_res]. rewrite init_arrays_get. destruct (in_dec string_dec "RIB_N" (output_names (t_names (tl_thermal p)))) as [I|_]; [|exact D].
      exfalso. apply smem_In in I. discriminate.
    - intros I. apply smem_In in I. discriminate. }
  unfold run_plotted. rewrite E. unfold plot_output1. cbn [save_plots].
  destruct (drawn_lines (l_res s) ohc_plot) as [d1 [E1 [F1 G1]]]; [intros k I; apply X; repeat (destruct I as [<-|I]; [reflexivity|]); destruct I|].
  rewrite E1. destruct (X "RIB_glob" eq_refl) as [v V].
  unfold rib_plot. cbn [mapM snd]. unfold arr_of at 1 2 3. rewrite V, NR. cbn [rbind]. repeat split.
Qed.
Lemma c88_no_folder {T} (th : thermal A T) c t0 h0 carbon r :
  run_plotted th c emi2conc conc2forc add_results fl false t0 h0 carbon r =
  (run T th c H emi2conc conc2forc add_results fl t0 h0 true carbon r, []).
Proof. unfold run_plotted. destruct (run_years _ _ _ _ _ _ _ _ _ _) as [s [e|]]; reflexivity. Qed.
End Plot1.
