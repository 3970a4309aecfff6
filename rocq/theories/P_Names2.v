(** * P_Names2: halogen dictionaries (C61) and regional rows (C81) *)
From Coq Require Import Ascii.
From Verif Require Import PyBase PyBaseFacts Num M_Utils M_Gas M_Names Spec_Names P_Names.

Lemma one_char_int a : py_int (one_char a) = match digit a with Some d => Ok d | None => Err ValueError end.
Proof.
  destruct a as [b0 b1 b2 b3 b4 b5 b6 b7]. destruct b0, b1, b2, b3, b4, b5, b6, b7; vm_compute; reflexivity.
Qed.
Lemma cl_symbol : symbol "Cl". Proof. right. exists "C"%char, "l"%char. now split. Qed.
Lemma br_symbol : symbol "Br". Proof. right. exists "B"%char, "r"%char. now split. Qed.
Lemma atoms_spec sym t : symbol sym -> occurs sym t -> exists n, atoms_of sym t = Ok n /\ forall m, atoms sym t m <-> m = n.
Proof.
  intros SY OC. assert (sym <> ""%string) as NE by (destruct SY as [[c ->]|(c & d & -> & _)]; discriminate).
  destruct (split_last_spec sym t NE) as [NO [[N _]|[a E]]]; [contradiction|]. unfold atoms_of. set (r := split_last sym t) in *.
  assert (forall m, atoms sym t m <-> digit_at r 0 m \/ (~ (exists d, digit_at r 0 d) /\ m = 1%Z)) as AT.
  { intros m. unfold atoms. split; [|intros X; exists a, r; split; [exact E|]; split; [exact NO | exact X]].
    intros (a' & r' & E' & NO' & X). rewrite (last_unique sym SY a a' r r') by (assumption || congruence). exact X. }
  destruct r as [|c r]; [exists 1%Z; split; [reflexivity|]|].
  - intros m. rewrite AT. split; [intros [(c & G & _)|[_ X]]; [discriminate | exact X] | intros ->; right; split; [|reflexivity]; intros (d & c & G & _); discriminate].
  - unfold isdigit. destruct (digit c) as [d|] eqn:D.
    + exists d. split; [now rewrite one_char_int, D|]. intros m. rewrite AT. split.
      * intros [(c' & G & D')|[N _]]; [injection G as <-; congruence|]. contradict N. exists d, c. now split.
      * intros ->. left. exists c. now split.
    + exists 1%Z. split; [reflexivity|]. intros m. rewrite AT. split.
      * intros [(c' & G & D')|[_ X]]; [injection G as <-; congruence | exact X].
      * intros ->. right. split; [|reflexivity]. intros (d & c' & G & D'). injection G as <-. congruence.
Qed.
Lemma halon_prefix t : String.eqb (substring 0 2 t) "H-" = true <-> exists r, t = ("H-" ++ r)%string.
Proof.
  split.
  - intros E. apply String.eqb_eq in E. destruct t as [|a t]; [discriminate|]. destruct t as [|b t]; [cbn in E; destruct t0 || discriminate|]. cbn in E. injection E as -> ->. now exists t.
  - intros [r ->]. destruct r; reflexivity.
Qed.
Definition opt_set (d : dict Z) (t : string) (o : option Z) : dict Z := match o with Some n => dset d t n | None => d end.
Lemma digit_at_fun t n a b : digit_at t n a -> digit_at t n b -> a = b.
Proof. intros (c & G & D) (c' & G' & D'). congruence. Qed.
Lemma char_digit t n : (exists d, digit_at t n d /\ (do c <- char_at t n; py_int (one_char c)) = Ok d) \/
  ((forall d, ~ digit_at t n d) /\ exists e, (do c <- char_at t n; py_int (one_char c)) = Err e /\ (e = IndexError \/ e = ValueError)).
Proof.
  unfold char_at. destruct (String.get n t) as [c|] eqn:G; cbn [rbind].
  - rewrite one_char_int. destruct (digit c) as [d|] eqn:D.
    + left. exists d. split; [exists c; now split | reflexivity].
    + right. split; [intros d (c' & G' & D'); congruence | exists ValueError; split; [reflexivity | now right]].
  - right. split; [intros d (c' & G' & D'); congruence | exists IndexError; split; [reflexivity | now left]].
Qed.

(** one name *)
Lemma classify_cases t : (exists oc ob, (forall cl br, classify t (cl, br) = Ok (opt_set cl t oc, opt_set br t ob)) /\
    (forall n, chlorine_entry t n <-> oc = Some n) /\ (forall n, bromine_entry t n <-> ob = Some n) /\ readable t) \/
  (~ readable t /\ forall d, exists e, classify t d = Err e).
Proof.
  unfold classify, chlorine_entry, bromine_entry, readable, chloride, bromide. destruct (contains "CFC-" t) eqn:F.
  { apply contains_occurs in F. assert (~ halon t) as NH by (intros [X _]; contradiction).
    destruct (find_num_cl_in_hcfc t) as [n|e].
    - left. exists (Some n), None. split; [reflexivity|]. split; [|split; [|split; [exists n; reflexivity | intros; contradiction]]].
      + intros m. split; [|intros E; injection E as ->; left; split; [exact F | reflexivity]]. intros [[_ E]|[[H _]|[[NF _] _]]]; try contradiction. now injection E as ->.
      + intros m. split; [|discriminate]. intros [[H _]|[[NF _] _]]; contradiction.
    - right. split; [intros [X _]; destruct (X F) as [n E]; discriminate|]. intros [cl br]. exists e. reflexivity. }
  apply not_contains in F. destruct (String.eqb (substring 0 2 t) "H-") eqn:H.
  { apply halon_prefix in H. assert (halon t) as HT by (now split).
    destruct (char_digit t 5) as [(b & DB & EB)|[NB (e & EB & _)]].
    - destruct (char_digit t 4) as [(c & DC & EC)|[NC (e & EC & _)]].
      + left. exists (if (0 <? c)%Z then Some c else None), (Some b). split; [|split; [|split; [|split; [intros; contradiction | intros _; exists c, b; now split]]]].
        * intros cl br. destruct (char_at t 5) as [c5|]; [|discriminate]. cbn [rbind] in *. rewrite EB. cbn [rbind]. destruct (char_at t 4) as [c4|]; [|discriminate]. cbn [rbind] in *. rewrite EC. cbn [rbind].
          destruct (0 <? c)%Z; reflexivity.
        * intros n. split.
          -- intros [[NF _]|[(_ & D & P)|[(_ & NH & _) _]]]; try contradiction. rewrite (digit_at_fun _ _ _ _ D DC) in P |- *. destruct (Z.ltb_spec 0 c); [reflexivity | lia].
          -- destruct (Z.ltb_spec 0 c) as [P|]; [|discriminate]. intros E. injection E as <-. right. left. split; [exact HT|]. now split.
        * intros n. split.
          -- intros [[_ D]|[(_ & NH & _) _]]; [|contradiction]. f_equal. exact (digit_at_fun _ _ _ _ DB D).
          -- intros E. injection E as <-. left. now split.
      + right. split; [intros [_ X]; destruct (X HT) as (n & m & D & _); now apply NC in D|]. intros [cl br]. destruct (char_at t 5) as [c5|]; [|discriminate]. cbn [rbind] in *. rewrite EB. cbn [rbind].
        destruct (char_at t 4) as [c4|e4]; cbn [rbind] in *; [|eexists; reflexivity]. rewrite EC. eexists; reflexivity.
    - right. split; [intros [_ X]; destruct (X HT) as (n & m & _ & D); now apply NB in D|]. intros [cl br]. destruct (char_at t 5) as [c5|e5]; cbn [rbind] in *; [|eexists; reflexivity]. rewrite EB. eexists; reflexivity. }
  assert (~ halon t) as NH by (intros [_ X]; apply halon_prefix in X; congruence).
  assert (readable t) as RD by (split; intros; contradiction).
  destruct (contains "Cl" t) eqn:C.
  { apply contains_occurs in C. destruct (atoms_spec "Cl" t cl_symbol C) as (n & E & AT). left. exists (Some n), None. split; [|split; [|split; [|exact RD]]].
    - intros cl br. rewrite E. reflexivity.
    - intros m. split; [intros [[X _]|[[X _]|[_ X]]]; try contradiction; apply AT in X; now subst|]. intros X. injection X as ->. right. right. split; [now repeat split | now apply AT].
    - intros m. split; [|discriminate]. intros [[X _]|[(_ & _ & X & _) _]]; contradiction. }
  apply not_contains in C. destruct (contains "Br" t) eqn:B.
  { apply contains_occurs in B. destruct (atoms_spec "Br" t br_symbol B) as (n & E & AT). left. exists None, (Some n). split; [|split; [|split; [|exact RD]]].
    - intros cl br. rewrite E. reflexivity.
    - intros m. split; [|discriminate]. intros [[X _]|[[X _]|[(_ & _ & X) _]]]; contradiction.
    - intros m. split; [intros [[X _]|[_ X]]; [contradiction|]; apply AT in X; now subst|]. intros X. injection X as ->. right. split; [now repeat split | now apply AT]. }
  apply not_contains in B. left. exists None, None. split; [reflexivity|]. split; [|split; [|exact RD]].
  - intros m. split; [|discriminate]. intros [[X _]|[[X _]|[(_ & _ & X) _]]]; contradiction.
  - intros m. split; [|discriminate]. intros [[X _]|[(_ & _ & _ & X) _]]; contradiction.
Qed.

Lemma opt_get d t o x : dget (opt_set d t o) x = match o with Some n => if String.eqb t x then Some n else dget d x | None => dget d x end.
Proof. destruct o; cbn [opt_set]; [apply dget_dset | reflexivity]. Qed.
Lemma classify_all_spec l : forall done cl br,
  (forall t n, dget cl t = Some n <-> In t done /\ chlorine_entry t n) -> (forall t n, dget br t = Some n <-> In t done /\ bromine_entry t n) ->
  (exists cl' br', classify_all l (cl, br) = Ok (cl', br') /\ (forall t, In t l -> readable t) /\
    (forall t n, dget cl' t = Some n <-> In t (done ++ l) /\ chlorine_entry t n) /\ (forall t n, dget br' t = Some n <-> In t (done ++ l) /\ bromine_entry t n)) \/
  (exists e, classify_all l (cl, br) = Err e /\ exists t, In t l /\ ~ readable t).
Proof.
  induction l as [|t l IH]; intros done cl br IC IB.
  - left. exists cl, br. rewrite app_nil_r. split; [reflexivity|]. split; [intros t []|]. now split. 
  - cbn [classify_all]. destruct (classify_cases t) as [(oc & ob & E & C & B & RD)|[NR X]].
    + rewrite E. cbn [rbind]. 
      assert (forall (P : string -> Z -> Prop) d o, (forall t n, dget d t = Some n <-> In t done /\ P t n) -> (forall n, P t n <-> o = Some n) ->
        forall x n, dget (opt_set d t o) x = Some n <-> In x (done ++ [t]) /\ P x n) as STEP.
      { intros P d o I Q x n. rewrite opt_get, in_app_iff. destruct o as [k|].
        - destruct (String.eqb_spec t x) as [<-|NE].
          + split; [intros X; split; [right; now left | now apply Q] | intros [_ X]; now apply Q in X].
          + rewrite I. split; [intros [X Y]; split; [now left | exact Y] | intros [[X|[X|[]]] Y]; [now split | contradiction]].
        - rewrite I. split; [intros [X Y]; split; [now left | exact Y]|]. intros [[X|[<-|[]]] Y]; [now split|]. apply Q in Y. discriminate. }
      destruct (IH (done ++ [t]) (opt_set cl t oc) (opt_set br t ob) (STEP _ _ _ IC C) (STEP _ _ _ IB B)) as [(cl' & br' & E' & R & C' & B')|(e & E' & t' & I & NR)].
      * left. exists cl', br'. split; [exact E'|]. split; [intros x [<-|I]; [exact RD | now apply R]|]. rewrite <- app_assoc in C', B'. now split.
      * right. exists e. split; [exact E'|]. exists t'. split; [now right | exact NR].
    + right. destruct (X (cl, br)) as [e E]. exists e. rewrite E. split; [reflexivity|]. exists t. split; [now left | exact NR].
Qed.
Lemma c61_dictionaries l :
  ((exists d, make_cl_and_br_dictionaries l = Ok d) <-> forall t, In t l -> readable t) /\
  (forall cl br, make_cl_and_br_dictionaries l = Ok (cl, br) ->
    (forall t n, dget cl t = Some n <-> In t l /\ chlorine_entry t n) /\ (forall t n, dget br t = Some n <-> In t l /\ bromine_entry t n)).
Proof.
  assert (forall (P : string -> Z -> Prop) t n, dget (@nil (string * Z)) t = Some n <-> In t [] /\ P t n) as I0 by (intros P t n; split; [discriminate | intros [[] _]]).
  destruct (classify_all_spec l [] [] [] (I0 _) (I0 _)) as [(cl' & br' & E & R & C & B)|(e & E & t & I & NR)].
  - change (make_cl_and_br_dictionaries l = Ok (cl', br')) in E. rewrite E. split; [split; [intros _; exact R | intros _; eauto]|]. intros cl br X. injection X as <- <-. now split.
  - change (make_cl_and_br_dictionaries l = Err e) in E. rewrite E. split; [split; [intros [d X]; discriminate | intros X; now apply X in I]|]. discriminate.
Qed.
Lemma c61_families t : ~ (freon t /\ halon t) /\ ~ (freon t /\ chloride t) /\ ~ (freon t /\ bromide t) /\ ~ (halon t /\ chloride t) /\ ~ (halon t /\ bromide t) /\ ~ (chloride t /\ bromide t).
Proof. unfold chloride, bromide, halon. tauto. Qed.
Lemma c61_formula l cl br t : make_cl_and_br_dictionaries l = Ok (cl, br) -> ~ freon t -> ~ halon t ->
  (occurs "Cl" t -> dget br t = None) /\ (~ occurs "Cl" t -> ~ occurs "Br" t -> dget cl t = None /\ dget br t = None).
Proof.
  intros E NF NH. destruct (proj2 (c61_dictionaries l) cl br E) as [C B]. split.
  - intros OC. destruct (dget br t) as [n|] eqn:D; [|reflexivity]. apply B in D as [_ [[X _]|[(_ & _ & X & _) _]]]; contradiction.
  - intros N1 N2. split.
    + destruct (dget cl t) as [n|] eqn:D; [|reflexivity]. apply C in D as [_ [[X _]|[[X _]|[(_ & _ & X) _]]]]; contradiction.
    + destruct (dget br t) as [n|] eqn:D; [|reflexivity]. apply B in D as [_ [[X _]|[(_ & _ & _ & X) _]]]; contradiction.
Qed.

(** ** regional rows *)
Section Regional.
Context {A : Type} {N : Num A}.
Lemma dset_twice {V} (d : dict V) k x y : dset (dset d k x) k y = dset d k y.
Proof. induction d as [|[k' v] d IH]; cbn; [now rewrite String.eqb_refl|]. destruct (String.eqb k' k) eqn:E; cbn; rewrite E; [reflexivity | now rewrite IH]. Qed.
Lemma add_regions_ok c (br : dict A) u m : forall row g, (forall k e, In (k, e) m -> dmem br e = true) -> NoDup (dkeys m) ->
  exists g', add_regions c br u m row g = Ok g' /\
    (forall k e x, In (k, e) m -> dget br e = Some x -> dget g' (regional_name c k) = Some (dset row "ALPHA" (x * u)%num)) /\
    (forall n, ~ In n (map (regional_name c) (dkeys m)) -> dget g' n = dget g n).
Proof.
  induction m as [|[k e] m IH]; intros row g IN ND.
  - exists g. split; [reflexivity|]. split; [intros k e x [] | reflexivity].
  - cbn [add_regions]. destruct (dget br e) as [x|] eqn:D; [|rewrite <- dmem_false in D; rewrite (IN k e) in D; [discriminate | now left]]. cbn [key rbind].
    cbn in ND. inversion ND as [|? ? NI ND']; subst.
    destruct (IH (dset row "ALPHA" (x * u)%num) (dset g (regional_name c k) (dset row "ALPHA" (x * u)%num))) as (g' & E & G & O); [intros k' e' I; apply (IN k' e'); now right | exact ND'|].
    exists g'. split; [exact E|].
    assert (forall k', k <> k' -> regional_name c k <> regional_name c k') as INJ.
    { intros k' NE X. apply NE. unfold regional_name in X. clear -X. induction c; cbn in X; injection X; [tauto | assumption]. }
    split.
    + intros k' e' x' [I|I] D'.
      * injection I as <- <-. rewrite O; [rewrite dget_dset_eq; congruence|]. intros X. apply in_map_iff in X as (k2 & X & I2). destruct (string_dec k k2) as [->|NE]; [contradiction | now apply (INJ k2 NE)].
      * rewrite (G k' e' x' I D'). now rewrite dset_twice.
    + intros n NI'. cbn in NI'. rewrite O by tauto. apply dget_dset_neq. intros X. apply NI'. now left.
Qed.
Lemma add_regions_err c (br : dict A) u m : forall row g k e, In (k, e) m -> dmem br e = false -> exists e', add_regions c br u m row g = Err (KeyError e').
Proof.
  induction m as [|[k0 e0] m IH]; intros row g k e I D; [destruct I|]. cbn [add_regions]. destruct (dget br e0) as [x|] eqn:D0; cbn [key rbind]; [|eauto].
  destruct I as [I|I]; [injection I as -> ->; unfold dmem in D; rewrite D0 in D; discriminate|]. eapply IH; eassumption.
Qed.
Lemma add_columns_ok gd u m : NoDup (dkeys m) -> forall forcing g, all_given gd forcing m -> NoDup (regional_names forcing m) ->
  exists g', add_columns gd forcing m u g = Ok g' /\
    (forall c br k e row x, In (c, br) forcing -> In (k, e) m -> dget gd c = Some row -> dget br e = Some x ->
       dget g' (regional_name c k) = Some (dset row "ALPHA" (x * u)%num)) /\
    (forall n, ~ In n (regional_names forcing m) -> dget g' n = dget g n).
Proof.
  intros NM. induction forcing as [|[c br] forcing IH]; intros g CP ND.
  - exists g. split; [reflexivity|]. split; [intros c br k e row x [] | reflexivity].
  - cbn [add_columns]. destruct (CP c br (or_introl eq_refl)) as [DC DR]. apply dmem_true in DC as [row DC]. rewrite DC. cbn [key rbind].
    destruct (add_regions_ok c br u m row g DR NM) as (g1 & E1 & G1 & O1). rewrite E1. cbn [rbind].
    unfold regional_names in ND. cbn [dkeys map fst flat_map] in ND. fold (dkeys forcing) in ND. fold (regional_names forcing m) in ND. fold (dkeys m) in ND.
    assert (NoDup (regional_names forcing m) /\ forall n, In n (map (regional_name c) (dkeys m)) -> ~ In n (regional_names forcing m)) as [ND2 DJ].
    { revert ND. generalize (regional_names forcing m) as q. change (fun k => regional_name c k) with (regional_name c). generalize (map (regional_name c) (dkeys m)) as p. clear.
      induction p as [|x p IH]; intros q ND; [split; [exact ND | intros n []]|]. cbn in ND. inversion ND as [|? ? NI ND']; subst. destruct (IH q ND') as [Q DJ]. split; [exact Q|].
      intros n [<-|I]; [intros X; apply NI; apply in_or_app; now right | now apply DJ]. }
    destruct (IH g1) as (g' & E & G & O); [intros c' by' I; apply CP; now right | exact ND2|]. exists g'. split; [exact E|]. split.
    + intros c' by' k e row' x [I|I] IM DR' DB.
      * injection I as <- <-. rewrite O; [|apply DJ; apply in_map; apply (in_map fst) in IM; exact IM]. rewrite DC in DR'. injection DR' as <-. now apply (G1 k e).
      * now apply (G c' by' k e).
    + intros n NI. unfold regional_names in NI. cbn [dkeys map fst flat_map] in NI. fold (dkeys forcing) in NI. fold (regional_names forcing m) in NI. rewrite in_app_iff in NI. rewrite O by tauto. apply O1. tauto.
Qed.
Lemma add_columns_err gd u m forcing : ~ all_given gd forcing m -> forall g, exists e, add_columns gd forcing m u g = Err (KeyError e).
Proof.
  induction forcing as [|[c br] forcing IH]; intros NC g; [contradict NC; intros c br []|]. cbn [add_columns]. destruct (dget gd c) as [row|] eqn:DC; cbn [key rbind]; [|eauto].
  assert (forall (p : list (string * string)), (forall k e, In (k, e) p -> dmem br e = true) \/ exists k e, In (k, e) p /\ dmem br e = false) as DEC.
  { induction p as [|[k e] p IHp]; [left; intros k e []|]. destruct (dmem br e) eqn:D; [|right; exists k, e; split; [now left | exact D]].
    destruct IHp as [X|(k' & e' & I & X)]; [left; intros k' e' [I|I]; [now injection I as <- <- | now apply (X k' e')] | right; exists k', e'; split; [now right | exact X]]. }
  destruct (DEC m) as [R|(k & e & I & D)].
  - destruct (add_regions c br u m row g) as [g1|e1] eqn:E1; cbn [rbind].
    + apply IH. intros CP. apply NC. intros c' by' [I|I]; [injection I as <- <-; split; [apply dmem_true; eauto | exact R] | now apply CP].
    + clear -R E1. exfalso. revert row g E1. induction m as [|[k e] m IHm]; intros row g E1; [discriminate|]. cbn [add_regions] in E1.
      destruct (dget br e) as [x|] eqn:D; [|rewrite <- dmem_false in D; rewrite (R k e) in D; [discriminate | now left]]. cbn [key rbind] in E1. apply IHm in E1; [exact E1|]. intros k' e' I. apply (R k' e'). now right.
  - destruct (add_regions_err c br u m row g k e I D) as [e' ->]. cbn [rbind]. eauto.
Qed.
End Regional.
Lemma no_under_last c c' k k' : ~ occurs "_" k -> ~ occurs "_" k' -> regional_name c k = regional_name c' k' -> c = c' /\ k = k'.
Proof.
  intros N N' E. assert (symbol "_") as SY by (left; now exists "_"%char). assert (k = k') as K by exact (last_unique "_" SY c c' k k' E N N'). split; [|exact K]. subst k'.
  unfold regional_name in E. revert c' E. induction c as [|x c IH]; intros [|x' c'] E; cbn in E; try reflexivity.
  - exfalso. injection E as _ E. assert (String.length k = String.length (c' ++ String "_" k)) as L by now rewrite <- E. rewrite slen_app in L. cbn in L. lia.
  - exfalso. injection E as _ E. assert (String.length k = String.length (c ++ String "_" k)) as L by now rewrite E. rewrite slen_app in L. cbn in L. lia.
  - injection E as -> E. f_equal. now apply IH.
Qed.
Lemma c81_distinct {V} (forcing : dict V) m : wf forcing -> wf m -> (forall k, In k (dkeys m) -> ~ occurs "_" k) -> NoDup (regional_names forcing m).
Proof.
  unfold wf, regional_names. intros WF WM NU. induction (dkeys forcing) as [|c l IH]; [constructor|]. cbn [flat_map]. inversion WF as [|? ? NI WF']; subst.
  assert (NoDup (map (fun k => regional_name c k) (dkeys m))) as N1.
  { clear -WM NU. induction (dkeys m) as [|k l IH]; cbn; constructor; inversion WM; subst.
    - intros I. apply in_map_iff in I as (k' & E & I). apply no_under_last in E as [_ ->]; [contradiction | apply NU; now right | apply NU; now left].
    - apply IH; [assumption | intros k' I; apply NU; now right]. }
  assert (forall n, In n (map (fun k => regional_name c k) (dkeys m)) -> ~ In n (flat_map (fun c => map (fun k => regional_name c k) (dkeys m)) l)) as DJ.
  { intros n I X. apply in_map_iff in I as (k & <- & I). apply in_flat_map in X as (c' & IC & X). apply in_map_iff in X as (k' & E & I'). apply no_under_last in E as [-> _]; [contradiction | now apply NU | now apply NU]. }
  specialize (IH WF'). revert N1 DJ. generalize (map (fun k => regional_name c k) (dkeys m)) as p. induction p as [|x p IHp]; intros N1 DJ; [exact IH|]. cbn. inversion N1; subst. constructor.
  - rewrite in_app_iff. intros [I|I]; [contradiction | apply (DJ x); [now left | exact I]].
  - apply IHp; [assumption | intros n I; apply DJ; now right].
Qed.
Lemma c81_default_keys : wf REG_MAPPING_DEFAULT /\ forall k, In k (dkeys REG_MAPPING_DEFAULT) -> ~ occurs "_" k.
Proof.
  split; [now apply wf_lit|]. intros k I. apply not_contains. repeat (destruct I as [<-|I]; [reflexivity|]). destruct I.
Qed.

Lemma c81_rows {A} {N : Num A} (gases forcing : dict (dict A)) om u :
  let m := match om with Some m => m | None => REG_MAPPING_DEFAULT end in
  wf m -> NoDup (regional_names forcing m) ->
  (all_given gases forcing m -> exists g, make_regional_aerosol_gaspamdata gases forcing om u = Ok g /\
     (forall c row by_region k region x, dget gases c = Some row -> In (c, by_region) forcing -> In (k, region) m -> dget by_region region = Some x ->
        dget g (regional_name c k) = Some (dset row "ALPHA" (x * u)%num)) /\
     (forall n, ~ In n (regional_names forcing m) -> dget g n = dget gases n)) /\
  (~ all_given gases forcing m -> exists k, make_regional_aerosol_gaspamdata gases forcing om u = Err (KeyError k)).
Proof.
  intros m WM ND. unfold make_regional_aerosol_gaspamdata. fold m. split.
  - intros AG. destruct (add_columns_ok gases u m WM forcing gases AG ND) as (g & E & G & O). exists g. split; [exact E|]. split; [|exact O].
    intros c row br k e x DG IC IM DB. exact (G c br k e row x IC IM DG DB).
  - intros NA. exact (add_columns_err gases u m forcing NA gases).
Qed.
