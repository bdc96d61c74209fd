(** CliProofs.v - the command line is read as CliSpec.v says. *)

From Verif Require Import Base BaseFacts Str Net Trie Extract World Update UpdateSpec WorldFacts Calls Print PrintSpec PrintProofs Cli CliSpec.
From Coq Require Import ZifyBool ZifyNat ZifyN.
Local Open Scope N_scope.

Definition flags : list flag := extract_flags ++ [help_flag].

(** ** Flags and options *)
Lemma lookup_options : forall name v, (exists c, lookup flags name = Some (mkFlag name c v)) <-> exists c, In (v, name, c) options.
Proof.
  intros name v. split.
  - intros (c & E). unfold lookup in E. apply find_some in E as [I E]. apply bytes_eqb_eq in E. cbn [f_name] in E.
    cbn [flags extract_flags app In] in I.
    destruct I as [I|[I|[I|[I|[]]]]]; injection I as <- _ <-; eexists; cbn [options In]; eauto.
  - intros (c & I). cbn [options In] in I.
    destruct I as [I|[I|[I|[I|[]]]]]; injection I as <- <- _; eexists; vm_compute; reflexivity.
Qed.
Lemma lookup_name : forall name f, lookup flags name = Some f -> f_name f = name.
Proof. intros name f E. unfold lookup in E. apply find_some in E as [_ E]. apply bytes_eqb_eq in E. exact E. Qed.
Lemma shorthand_options : forall c v, (exists name, shorthand_lookup flags c = Some (mkFlag name c v)) <-> exists name, In (v, name, [c]) options.
Proof.
  intros c v. split.
  - intros (name & E). unfold shorthand_lookup in E. apply find_some in E as [I E]. apply N.eqb_eq in E.
    cbn [flags extract_flags app In] in I.
    destruct I as [I|[I|[I|[I|[]]]]]; injection I as _ <- <-; eexists; cbn [options In]; eauto.
  - intros (name & I). cbn [options In] in I.
    destruct I as [I|[I|[I|[I|[]]]]]; injection I as <- _ <-; eexists; vm_compute; reflexivity.
Qed.
Lemma shorthand_short : forall c f, shorthand_lookup flags c = Some f -> f_short f = c.
Proof. intros c f E. unfold shorthand_lookup in E. apply find_some in E as [_ E]. apply N.eqb_eq in E. exact E. Qed.
Lemma option_letter : forall v name c, In (v, name, c) options -> exists x, c = [x].
Proof. intros v name c I. cbn [options In] in I. destruct I as [I|[I|[I|[I|[]]]]]; injection I as <- <- <-; eexists; reflexivity. Qed.
Lemma option_name : forall v name c, In (v, name, c) options ->
  ~ In 61 name /\ exists x t, name = x :: t /\ x <> 45 /\ x <> 61.
Proof.
  intros v name c I. cbn [options In] in I.
  destruct I as [I|[I|[I|[I|[]]]]]; injection I as <- <- <-;
    (split; [vm_compute; intuition discriminate|eexists; eexists; split; [vm_compute; reflexivity|split; discriminate]]).
Qed.
Lemma parse_bool_means : forall s b, parse_bool s = Some b <-> means s b.
Proof.
  intros s b. unfold parse_bool.
  change [str "1"; str "t"; str "T"; str "true"; str "TRUE"; str "True"] with truths.
  change [str "0"; str "f"; str "F"; str "false"; str "FALSE"; str "False"] with falsehoods.
  assert (X : forall l, existsb (bytes_eqb s) l = true <-> In s l).
  { intros l. rewrite existsb_exists. split.
    - intros (t & I & E). apply bytes_eqb_eq in E. subst t. exact I.
    - intros I. exists s. split; [exact I|]. apply bytes_eqb_eq. reflexivity. }
  split.
  - destruct (existsb (bytes_eqb s) truths) eqn:T.
    + intros [= <-]. apply means_true, X, T.
    + destruct (existsb (bytes_eqb s) falsehoods) eqn:E; [|discriminate]. intros [= <-]. apply means_false, X, E.
  - intros M. inversion M as [s' I|s' I]; subst s'; apply X in I.
    + rewrite I. reflexivity.
    + destruct (existsb (bytes_eqb s) truths) eqn:T; [|rewrite I; reflexivity].
      exfalso. apply X in T, I. clear M. cbn [truths In] in T.
      destruct T as [<-|[<-|[<-|[<-|[<-|[<-|[]]]]]]]; vm_compute in I; intuition discriminate.
Qed.
Lemma means_nonempty : forall s b, means s b -> s <> [].
Proof.
  intros s b M ->. apply parse_bool_means in M. vm_compute in M. discriminate.
Qed.

Lemma has_prefix_eq : forall s p, has_prefix s p = true <-> exists t, s = p ++ t.
Proof.
  induction s as [|x s IH]; intros [|y p]; cbn [has_prefix app].
  - split; [exists []; reflexivity|reflexivity].
  - split; [discriminate|intros (t & [=])].
  - split; [eexists; reflexivity|reflexivity].
  - rewrite andb_true_iff, N.eqb_eq, IH. split.
    + intros (-> & t & ->). exists t. reflexivity.
    + intros (t & [= -> ->]). split; [reflexivity|exists t; reflexivity].
Qed.
Lemma dash_prefix : forall t, has_prefix (str "-" ++ t) (str "-") = true.
Proof. intros t. apply has_prefix_eq. exists t. reflexivity. Qed.

Lemma set_flag_inr : forall vals f value vals', set_flag vals f value = inr vals' <-> exists b, means value b /\ vals' = (f_variable f, b) :: vals.
Proof.
  intros vals f value vals'. unfold set_flag. destruct (parse_bool value) as [b|] eqn:E.
  - apply parse_bool_means in E. split.
    + intros [= <-]. exists b. split; [exact E|reflexivity].
    + intros (b' & M & ->). apply parse_bool_means in M, E. rewrite E in M. injection M as <-. reflexivity.
  - split; [discriminate|]. intros (b & M & _). apply parse_bool_means in M. rewrite M in E. discriminate.
Qed.
Lemma set_flag_bare : forall vals f, set_flag vals f no_opt_def_val = inr ((f_variable f, true) :: vals).
Proof. reflexivity. Qed.

Lemma parse_short_reads : forall s vals vals',
  parse_short flags s vals = inr vals' <-> exists l, letters s l /\ vals' = rev l ++ vals.
Proof.
  induction s as [|c s IH]; intros vals vals'.
  { cbn [parse_short]. split.
    - intros [= <-]. exists []. split; [constructor|reflexivity].
    - intros (l & L & ->). inversion L as [|v name c s l' I L' E| |]; subst.
      + reflexivity.
      + destruct (option_letter _ _ _ I) as [x ->]. discriminate E.
      + match goal with H : In _ options |- _ => destruct (option_letter _ _ _ H) as [x ->] end. discriminate. }
  change (parse_short flags (c :: s) vals) with
    (if has_prefix (c :: s) (str "test.") then inr vals
     else match shorthand_lookup flags c with
          | None => inl (UnknownShorthand c)
          | Some f =>
            if (2 <? len (c :: s))%Z && has_prefix s (str "=") then set_flag vals f (skipn 1 s)
            else match set_flag vals f no_opt_def_val with
                 | inl e => inl e
                 | inr vals => parse_short flags s vals
                 end
          end).
  destruct (has_prefix (c :: s) (str "test.")) eqn:T.
  { apply has_prefix_eq in T as (t & T). split.
    - intros [= <-]. exists []. split; [rewrite T; constructor|reflexivity].
    - intros (l & L & ->). f_equal. enough (l = []) as -> by reflexivity.
      inversion L as [|v name c' s' l' I L' E|v name c' s' b I M E|s' E]; subst l.
      + destruct (option_letter _ _ _ I) as [x ->]. rewrite T in E. injection E as -> ->.
        exfalso. inversion L' as [|v2 name2 c2 s2 l2 I2 L2 E2|v2 name2 c2 s2 b2 I2 M2 E2|s2 E2].
        * destruct (option_letter _ _ _ I2) as [y ->]. injection E2 as -> _. cbn [options In] in I2. vm_compute in I2. intuition discriminate.
        * destruct (option_letter _ _ _ I2) as [y ->]. injection E2 as -> _. cbn [options In] in I2. vm_compute in I2. intuition discriminate.
      + destruct (option_letter _ _ _ I) as [x ->]. rewrite T in E. discriminate.
      + reflexivity. }
  assert (T' : forall t, c :: s <> str "test." ++ t).
  { intros t E. assert (X : has_prefix (c :: s) (str "test.") = true) by (apply has_prefix_eq; exists t; exact E). congruence. }
  destruct (shorthand_lookup flags c) as [f|] eqn:F.
  2:{ split; [discriminate|]. intros (l & L & _). exfalso.
      assert (X : forall v name, ~ In (v, name, [c]) options).
      { intros v name I. destruct (proj2 (shorthand_options c v) (ex_intro _ name I)) as [n E]. congruence. }
      inversion L as [|v name c' s' l' I L' E|v name c' s' b I M E|s' E].
      - destruct (option_letter _ _ _ I) as [x ->]. injection E as -> _. exact (X _ _ I).
      - destruct (option_letter _ _ _ I) as [x ->]. injection E as -> _. exact (X _ _ I).
      - apply (T' s'); subst; reflexivity. }
  assert (X : exists name, In (f_variable f, name, [c]) options).
  { apply shorthand_options. exists (f_name f). rewrite F. pose proof (shorthand_short _ _ F) as <-. destruct f; reflexivity. }
  destruct X as [name I].
  assert (U : forall v name', In (v, name', [c]) options -> v = f_variable f).
  { intros v name' I'. destruct (proj2 (shorthand_options c v) (ex_intro _ name' I')) as [n E]. rewrite F in E. injection E as ->. reflexivity. }
  assert (NE : forall v name', ~ In (v, name', [61]) options).
  { intros v name' I'. vm_compute in I'. intuition discriminate. }
  destruct ((2 <? len (c :: s))%Z && has_prefix s (str "=")) eqn:V.
  - apply andb_true_iff in V as [V P]. apply has_prefix_eq in P as (t & ->). cbn [str app skipn]. change (skipn 1 (str "=" ++ t)) with t.
    rewrite set_flag_inr. split.
    + intros (b & M & ->). exists [(f_variable f, b)]. split; [|reflexivity]. exact (letters_value _ _ _ _ _ I M).
    + intros (l & L & ->). inversion L as [|v name' c' s' l' I' L' E|v name' c' s' b I' M E|s' E].
      * destruct (option_letter _ _ _ I') as [x ->]. injection E as -> ->. exfalso.
        inversion L' as [|v2 name2 c2 s2 l2 I2 L2 E2|v2 name2 c2 s2 b2 I2 M2 E2|s2 E2].
        -- destruct (option_letter _ _ _ I2) as [y ->]. injection E2 as -> _. exact (NE _ _ I2).
        -- destruct (option_letter _ _ _ I2) as [y ->]. injection E2 as -> _. exact (NE _ _ I2).
      * destruct (option_letter _ _ _ I') as [x ->]. injection E as -> ->. apply U in I'. subst v.
        exists b. split; [exact M|reflexivity].
  - rewrite set_flag_bare, IH. split.
    + intros (l & L & ->). exists ((f_variable f, true) :: l). split; [exact (letters_more _ _ [c] _ _ I L)|].
      cbn [rev]. rewrite <- app_assoc. reflexivity.
    + intros (l & L & ->). inversion L as [|v name' c' s' l' I' L' E|v name' c' s' b I' M E|s' E].
      * destruct (option_letter _ _ _ I') as [x ->]. injection E as -> ->. apply U in I'. subst v.
        exists l'. split; [exact L'|]. cbn [rev]. rewrite <- app_assoc. reflexivity.
      * destruct (option_letter _ _ _ I') as [x ->]. injection E as -> <-. exfalso.
        pose proof (means_nonempty _ _ M) as NM. destruct s' as [|y s']; [congruence|].
        apply andb_false_iff in V as [V|V]; [unfold len in V; cbn [length app str] in V; lia|].
        assert (W : has_prefix (61 :: y :: s') (str "=") = true) by (apply has_prefix_eq; exists (y :: s'); reflexivity).
        change (str "=" ++ y :: s') with (61 :: y :: s') in V. congruence.
      * exfalso. apply (T' s'); subst; reflexivity.
Qed.

(** ** Arguments *)
Lemma split_equals_none : forall s, ~ In 61 s -> split_equals s = (s, None).
Proof.
  induction s as [|c s IH]; intros N; cbn [split_equals]; [reflexivity|].
  destruct (N.eqb_spec c 61) as [->|_]; [exfalso; apply N; left; reflexivity|].
  rewrite IH; [reflexivity|]. intros I. apply N. right. exact I.
Qed.
Lemma split_equals_some : forall s t, ~ In 61 s -> split_equals (s ++ str "=" ++ t) = (s, Some t).
Proof.
  induction s as [|c s IH]; intros t N; cbn [split_equals app str]; [reflexivity|].
  destruct (N.eqb_spec c 61) as [->|_]; [exfalso; apply N; left; reflexivity|].
  rewrite IH; [reflexivity|]. intros I. apply N. right. exact I.
Qed.
Lemma split_equals_eq : forall s, match split_equals s with (a, None) => s = a | (a, Some b) => s = a ++ str "=" ++ b end.
Proof.
  induction s as [|c s IH]; cbn [split_equals]; [reflexivity|].
  destruct (N.eqb_spec c 61) as [->|_]; [reflexivity|]. destruct (split_equals s) as [a [b|]]; rewrite IH; reflexivity.
Qed.

Lemma parse_long_reads : forall t vals vals',
  parse_long flags t vals = inr vals' <-> exists v b, spells (str "--" ++ t) [(v, b)] /\ (exists x t', t = x :: t') /\ vals' = (v, b) :: vals.
Proof.
  intros t vals vals'.
  assert (SL : forall v b, t <> [] -> spells (str "--" ++ t) [(v, b)] <->
    (exists name c, In (v, name, c) options /\ (t = name /\ b = true \/ exists s, t = name ++ str "=" ++ s /\ means s b))).
  { intros v b NE. split.
    - intros S. remember (str "--" ++ t) as u eqn:Eu. remember [(v, b)] as l eqn:El.
      destruct S as [v' name c I|v' name c s b' I M|s l N L].
      + apply app_inv_head in Eu. injection El as -> ->. exists name, c. split; [exact I|]. left. auto.
      + apply app_inv_head in Eu. injection El as -> ->. exists name, c. split; [exact I|]. right. exists s. auto.
      + change (str "--" ++ t) with (str "-" ++ 45 :: t) in Eu. apply app_inv_head in Eu. subst s. exfalso.
        remember (45 :: t) as u eqn:Eu. destruct L as [|v2 name2 c2 s2 l2 I2 L2|v2 name2 c2 s2 b2 I2 M2|s2].
        * discriminate.
        * destruct (option_letter _ _ _ I2) as [y ->]. injection Eu as -> _. vm_compute in I2. intuition discriminate.
        * destruct (option_letter _ _ _ I2) as [y ->]. injection Eu as -> _. vm_compute in I2. intuition discriminate.
        * discriminate.
    - intros (name & c & I & [[-> ->]|(s & -> & M)]).
      + exact (spells_name _ _ _ I).
      + exact (spells_value _ _ _ _ _ I M). }
  unfold parse_long.
  destruct ((len t =? 0)%Z || has_prefix t (str "-") || has_prefix t (str "=")) eqn:B.
  { split; [discriminate|]. intros (v & b & S & (x & t' & T) & _). exfalso.
    apply SL in S; [|congruence]. destruct S as (name & c & I & S). apply option_name in I as (_ & y & n & -> & N1 & N2).
    assert (X : exists t2, t = y :: t2). { destruct S as [[-> _]|(s & -> & _)]; eexists; reflexivity. }
    destruct X as (t2 & ->). apply orb_true_iff in B as [B|B]; [apply orb_true_iff in B as [B|B]|].
    - unfold len in B. cbn [length] in B. lia.
    - apply has_prefix_eq in B as (z & [= -> _]). congruence.
    - apply has_prefix_eq in B as (z & [= -> _]). congruence. }
  assert (NE : t <> []). { intros ->. discriminate. }
  pose proof (split_equals_eq t) as SE. destruct (split_equals t) as [name value] eqn:SP.
  assert (NN : forall name' v c s, In (v, name', c) options -> t = name' \/ t = name' ++ str "=" ++ s -> name' = name /\ (t = name' -> value = None) /\ (t = name' ++ str "=" ++ s -> value = Some s)).
  { intros name' v c s I T. apply option_name in I as [NI _]. destruct T as [-> | ->].
    - rewrite split_equals_none in SP by exact NI. injection SP as <- <-. split; [reflexivity|]. split; [reflexivity|].
      intros E. exfalso. apply NI. rewrite E. apply in_or_app. right. left. reflexivity.
    - rewrite split_equals_some in SP by exact NI. injection SP as <- <-. split; [reflexivity|]. split; [|reflexivity].
      intros E. exfalso. apply NI. rewrite <- E. apply in_or_app. right. left. reflexivity. }
  destruct (lookup flags name) as [f|] eqn:F.
  2:{ split; [discriminate|]. intros (v & b & S & _ & _). exfalso. apply SL in S; [|exact NE]. destruct S as (name' & c & I & S).
      assert (X : name' = name). { destruct S as [[T _]|(s & T & _)]; [eapply (NN name' v c []); eauto|eapply (NN name' v c s); eauto]. }
      subst name'. destruct (proj2 (lookup_options name v) (ex_intro _ c I)) as [x E]. congruence. }
  assert (X : exists c, In (f_variable f, name, c) options).
  { apply lookup_options. exists (f_short f). rewrite F. rewrite <- (lookup_name _ _ F). destruct f; reflexivity. }
  destruct X as [c I].
  assert (U : forall v c', In (v, name, c') options -> v = f_variable f).
  { intros v c' I'. destruct (proj2 (lookup_options name v) (ex_intro _ c' I')) as [n E]. rewrite F in E. injection E as ->. reflexivity. }
  rewrite set_flag_inr. split.
  - intros (b & M & ->). exists (f_variable f), b. split; [|split; [|reflexivity]].
    + apply SL; [exact NE|]. exists name, c. split; [exact I|]. destruct value as [s|].
      * right. exists s. split; [exact SE|exact M].
      * left. split; [exact SE|]. change (means no_opt_def_val b) in M. apply parse_bool_means in M. injection M as <-. reflexivity.
    + destruct t as [|x t']; [congruence|]. eexists; eexists; reflexivity.
  - intros (v & b & S & _ & ->). apply SL in S; [|exact NE]. destruct S as (name' & c' & I' & [[T ->]|(s & T & M)]).
    + destruct (NN name' v c' [] I' (or_introl T)) as (-> & V & _). apply U in I'. subst v. rewrite (V T).
      exists true. split; [|reflexivity]. apply parse_bool_means. reflexivity.
    + destruct (NN name' v c' s I' (or_intror T)) as (-> & _ & V). apply U in I'. subst v. rewrite (V T).
      exists b. split; [exact M|reflexivity].
Qed.

Lemma spells_dash : forall x t l, x <> 45 -> spells (str "-" ++ x :: t) l <-> letters (x :: t) l.
Proof.
  intros x t l N. split.
  - intros S. remember (str "-" ++ x :: t) as u eqn:Eu. destruct S as [v name c I|v name c s b I M|s l _ L].
    + injection Eu as E _. congruence.
    + injection Eu as E _. congruence.
    + apply app_inv_head in Eu. subst s. exact L.
  - intros L. apply spells_letters; [discriminate|exact L].
Qed.
Lemma spells_dashes : forall x t l, spells (str "--" ++ x :: t) l -> exists v b, l = [(v, b)].
Proof.
  intros x t l S. remember (str "--" ++ x :: t) as u eqn:Eu. destruct S as [v name c I|v name c s b I M|s l _ L]; [eauto..|].
  change (str "--" ++ x :: t) with (str "-" ++ 45 :: x :: t) in Eu. apply app_inv_head in Eu. subst s. exfalso.
  remember (45 :: x :: t) as u eqn:Eu. destruct L as [|v2 name2 c2 s2 l2 I2 L2|v2 name2 c2 s2 b2 I2 M2|s2].
  - discriminate.
  - destruct (option_letter _ _ _ I2) as [y ->]. injection Eu as -> _. vm_compute in I2. intuition discriminate.
  - destruct (option_letter _ _ _ I2) as [y ->]. injection Eu as -> _. vm_compute in I2. intuition discriminate.
  - discriminate.
Qed.
Lemma spells_not_end : forall l, ~ spells (str "--") l.
Proof.
  intros l S. remember (str "--") as u eqn:Eu. destruct S as [v name c I|v name c s b I M|s l N L].
  - apply option_name in I as (_ & x & t & -> & _). discriminate.
  - apply option_name in I as (_ & x & t & -> & _). discriminate.
  - change (str "--") with (str "-" ++ [45]) in Eu. apply app_inv_head in Eu. subst s.
    remember [45] as u eqn:Eu. destruct L as [|v2 name2 c2 s2 l2 I2 L2|v2 name2 c2 s2 b2 I2 M2|s2].
    + discriminate.
    + destruct (option_letter _ _ _ I2) as [y ->]. injection Eu as -> _. vm_compute in I2. intuition discriminate.
    + destruct (option_letter _ _ _ I2) as [y ->]. injection Eu as -> _. vm_compute in I2. intuition discriminate.
    + discriminate.
Qed.
Lemma spells_dash_first : forall s l, spells s l -> exists x t, s = str "-" ++ x :: t.
Proof.
  intros s l S. destruct S as [v name c I|v name c s b I M|s l N L].
  - eexists; eexists; reflexivity.
  - eexists; eexists; reflexivity.
  - destruct s as [|x s]; [congruence|]. eauto.
Qed.
Lemma word_not_dash : forall x t, ~ word (str "-" ++ x :: t).
Proof. intros x t [E|N]; [discriminate|]. exact (N _ eq_refl). Qed.
Lemma argument_cases : forall s, word s \/ s = str "--" \/ (exists x t, s = str "--" ++ x :: t) \/ exists x t, x <> 45 /\ s = str "-" ++ x :: t.
Proof.
  intros s. destruct s as [|c s]; [left; right; intros t [=]|].
  destruct (N.eq_dec c 45) as [->|N]; [|left; right; intros t [= E _]; congruence].
  destruct s as [|x s]; [left; left; reflexivity|].
  destruct (N.eq_dec x 45) as [->|N].
  - destruct s as [|y s]; [right; left; reflexivity|]. right. right. left. exists y, s. reflexivity.
  - right. right. right. exists x, s. split; [exact N|reflexivity].
Qed.

(** One step of [parse_args] *)
Lemma parse_word : forall s args vals, word s ->
  parse_args flags (s :: args) vals = match parse_args flags args vals with inl e => inl e | inr (vals, rest) => inr (vals, s :: rest) end.
Proof.
  intros s args vals W. cbn [parse_args].
  replace ((len s =? 0)%Z || negb (has_prefix s (str "-")) || (len s =? 1)%Z) with true; [reflexivity|].
  symmetry. destruct W as [->|W]; [reflexivity|].
  destruct (has_prefix s (str "-")) eqn:P; [|rewrite orb_true_r; reflexivity].
  apply has_prefix_eq in P as (t & ->). exfalso. exact (W _ eq_refl).
Qed.
Lemma parse_end : forall args vals, parse_args flags (str "--" :: args) vals = inr (vals, args).
Proof. reflexivity. Qed.
Lemma parse_dashes : forall x t args vals, parse_args flags ((str "--" ++ x :: t) :: args) vals =
  match parse_long flags (x :: t) vals with inl e => inl e | inr vals => parse_args flags args vals end.
Proof.
  intros x t args vals. cbn [parse_args].
  replace ((len (str "--" ++ x :: t) =? 0)%Z || negb (has_prefix (str "--" ++ x :: t) (str "-")) || (len (str "--" ++ x :: t) =? 1)%Z) with false.
  2:{ symmetry. apply orb_false_iff. split; [apply orb_false_iff; split|]; [unfold len; cbn [str length app]|reflexivity|unfold len; cbn [length app]].
      - change (length (str "--" ++ x :: t)) with (S (S (S (length t)))). lia.
      - change (length (str "--" ++ x :: t)) with (S (S (S (length t)))). lia. }
  replace (has_prefix (str "--" ++ x :: t) (str "--")) with true by (symmetry; apply has_prefix_eq; eexists; reflexivity).
  replace (len (str "--" ++ x :: t) =? 2)%Z with false; [reflexivity|]. symmetry.
  unfold len. change (length (str "--" ++ x :: t)) with (S (S (S (length t)))). lia.
Qed.
Lemma parse_dash : forall x t args vals, x <> 45 -> parse_args flags ((str "-" ++ x :: t) :: args) vals =
  match parse_short flags (x :: t) vals with inl e => inl e | inr vals => parse_args flags args vals end.
Proof.
  intros x t args vals N. cbn [parse_args].
  replace ((len (str "-" ++ x :: t) =? 0)%Z || negb (has_prefix (str "-" ++ x :: t) (str "-")) || (len (str "-" ++ x :: t) =? 1)%Z) with false.
  2:{ symmetry. apply orb_false_iff. split; [apply orb_false_iff; split|]; [|reflexivity|];
        unfold len; change (length (str "-" ++ x :: t)) with (S (S (length t))); lia. }
  replace (has_prefix (str "-" ++ x :: t) (str "--")) with false; [reflexivity|].
  symmetry. destruct (has_prefix (str "-" ++ x :: t) (str "--")) eqn:P; [|reflexivity].
  apply has_prefix_eq in P as (u & P). injection P as -> _. congruence.
Qed.

Lemma parse_args_reads : forall args vals vals' rest,
  parse_args flags args vals = inr (vals', rest) <-> exists l, reads args l rest /\ vals' = rev l ++ vals.
Proof.
  induction args as [|s args IH]; intros vals vals' rest.
  { cbn [parse_args]. split.
    - intros [= <- <-]. exists []. split; [constructor|reflexivity].
    - intros (l & R & ->). inversion R; subst. reflexivity. }
  destruct (argument_cases s) as [W|[->|[(x & t & ->)|(x & t & N & ->)]]].
  - rewrite parse_word by exact W. split.
    + destruct (parse_args flags args vals) as [e|[v r]] eqn:E; [discriminate|]. intros [= <- <-].
      apply IH in E as (l & R & ->). exists l. split; [apply reads_word; assumption|reflexivity].
    + intros (l & R & ->). inversion R as [|args'|s' l1 args' l2 words S R'|s' args' l' words W' R']; subst.
      * exfalso. exact (word_not_dash 45 [] W).
      * exfalso. apply spells_dash_first in S as (y & u & ->). exact (word_not_dash _ _ W).
      * assert (E : parse_args flags args vals = inr (rev l ++ vals, words)) by (apply IH; exists l; auto). rewrite E. reflexivity.
  - rewrite parse_end. split.
    + intros [= <- <-]. exists []. split; [constructor|reflexivity].
    + intros (l & R & ->). inversion R as [|args'|s' l1 args' l2 words S R'|s' args' l' words W' R']; subst.
      * reflexivity.
      * exfalso. exact (spells_not_end _ S).
      * exfalso. exact (word_not_dash 45 [] W').
  - rewrite parse_dashes. split.
    + destruct (parse_long flags (x :: t) vals) as [e|v1] eqn:E; [discriminate|].
      apply parse_long_reads in E as (v & b & S & _ & ->). intros P. apply IH in P as (l & R & ->).
      exists ([(v, b)] ++ l). split; [apply reads_option; assumption|]. cbn [app rev]. rewrite <- app_assoc. reflexivity.
    + intros (l & R & ->). inversion R as [|args'|s' l1 args' l2 words S R'|s' args' l' words W' R']; subst.
      * destruct (spells_dashes _ _ _ S) as (v & b & ->).
        assert (E : parse_long flags (x :: t) vals = inr ((v, b) :: vals)). { apply parse_long_reads. exists v, b. eauto. }
        rewrite E. apply IH. exists l2. split; [assumption|]. cbn [app rev]. rewrite <- app_assoc. reflexivity.
      * exfalso. exact (word_not_dash 45 (x :: t) W').
  - rewrite parse_dash by exact N. split.
    + destruct (parse_short flags (x :: t) vals) as [e|v1] eqn:E; [discriminate|].
      apply parse_short_reads in E as (l1 & L & ->). intros P. apply IH in P as (l & R & ->).
      exists (l1 ++ l). split; [apply reads_option; [apply spells_dash; assumption|assumption]|].
      rewrite rev_app_distr, app_assoc. reflexivity.
    + intros (l & R & ->). inversion R as [|args' E1|s' l1 args' l2 words S R'|s' args' l' words W' R']; subst.
      * exfalso. congruence.
      * apply spells_dash in S; [|exact N].
        assert (E : parse_short flags (x :: t) vals = inr (rev l1 ++ vals)). { apply parse_short_reads. exists l1. auto. }
        rewrite E. apply IH. exists l2. split; [assumption|]. rewrite rev_app_distr, app_assoc. reflexivity.
      * exfalso. exact (word_not_dash x t W').
Qed.

(** ** Values *)
Lemma variable_eqb_eq : forall v w, variable_eqb v w = true <-> v = w.
Proof. intros [] []; cbn [variable_eqb]; split; congruence. Qed.
Lemma get_bool_on : forall l v b, get_bool (rev l) v = b <-> is_on l v b.
Proof.
  intros l v b. unfold get_bool, is_on. induction l as [|[w b1] l IH] using rev_ind.
  - cbn [rev find]. split; [intros <-; right; split; [reflexivity|intros ? []]|].
    intros [(l1 & l2 & E & _)|[-> _]]; [destruct l1; discriminate|reflexivity].
  - rewrite rev_app_distr. cbn [rev app find fst]. destruct (variable_eqb w v) eqn:V.
    + apply variable_eqb_eq in V. subst w. split.
      * intros <-. left. exists l, []. split; [reflexivity|intros ? []].
      * intros [(l1 & l2 & E & N)|[-> N]].
        -- destruct l2 as [|x l2 _] using rev_ind.
           ++ apply app_inj_tail in E as [_ E]. congruence.
           ++ rewrite app_comm_cons, app_assoc in E. apply app_inj_tail in E as [_ <-]. exfalso.
              apply (N b1). apply in_or_app. right. left. reflexivity.
        -- exfalso. apply (N b1). apply in_or_app. right. left. reflexivity.
    + assert (NV : w <> v) by (intros ->; rewrite (proj2 (variable_eqb_eq v v) eq_refl) in V; discriminate).
      rewrite IH. split.
      * intros [(l1 & l2 & -> & N)|[-> N]].
        -- left. exists l1, (l2 ++ [(w, b1)]). split; [rewrite <- app_assoc; reflexivity|].
           intros b' I. apply in_app_or in I as [I|[I|[]]]; [exact (N _ I)|]. congruence.
        -- right. split; [reflexivity|]. intros b' I. apply in_app_or in I as [I|[I|[]]]; [exact (N _ I)|congruence].
      * intros [(l1 & l2 & E & N)|[-> N]].
        -- left. destruct l2 as [|x l2 _] using rev_ind.
           ++ apply app_inj_tail in E as [_ E]. congruence.
           ++ rewrite app_comm_cons, app_assoc in E. apply app_inj_tail in E as [-> _]. exists l1, l2. split; [reflexivity|].
              intros b' I. apply (N b'). apply in_or_app. left. exact I.
        -- right. split; [reflexivity|]. intros b' I. apply (N b'). apply in_or_app. left. exact I.
Qed.

(** ** The name of the command *)
Lemma memN_In : forall x l, memN x l = true <-> In x l.
Proof.
  intros x l. unfold memN. rewrite existsb_exists. split.
  - intros (y & I & E). apply N.eqb_eq in E. subst y. exact I.
  - intros I. exists x. split; [exact I|apply N.eqb_refl].
Qed.
Lemma takes_value_hides : forall s, s <> str "--" -> takes_value [] s = true <-> hides s.
Proof.
  intros s NE. unfold takes_value, hides.
  assert (E : forall (b : bool), negb b = true <-> b <> true) by (intros []; cbn; split; congruence).
  assert (L : forall c, shorthand_lookup [] c = None) by reflexivity.
  replace (match nth_error s 1 with Some c => match shorthand_lookup [] c with Some _ => false | None => true end | None => true end) with true
    by (destruct (nth_error s 1); reflexivity).
  change (lookup [] (skipn 2 s)) with (@None flag). cbv iota. rewrite !andb_true_r, orb_true_iff, !andb_true_iff, !E, memN_In, !has_prefix_eq.
  split.
  - intros [[(t & ->) N]|[[(t & ->) N] LE]].
    + split; [|auto]. destruct t as [|c t]; [exfalso; apply NE; reflexivity|]. exists c. right. exists t. reflexivity.
    + split; [|auto]. unfold len in LE. destruct t as [|c [|d t]]; [discriminate| |].
      * exists c. left. reflexivity.
      * exfalso. change (length (str "-" ++ c :: d :: t)) with (S (S (S (length t)))) in LE. lia.
  - intros ((c & [->|(t & ->)]) & _ & N).
    + right. split; [split; [eexists; reflexivity|exact N]|reflexivity].
    + left. split; [eexists; reflexivity|exact N].
Qed.

Definition name_like (s : bytes) : Prop := s <> [] /\ forall t, s <> str "-" ++ t.
Lemma name_like_conds : forall s, name_like s <-> negb (len s =? 0)%Z && negb (has_prefix s (str "-")) = true.
Proof.
  intros s. unfold name_like. rewrite andb_true_iff. destruct s as [|c s].
  - split; [intros [N _]; congruence|intros [N _]; discriminate].
  - destruct (has_prefix (c :: s) (str "-")) eqn:P.
    + apply has_prefix_eq in P as (t & P). split; [intros [_ N]; exfalso; exact (N t P)|intros [_ N]; discriminate].
    + split; [intros _; split; reflexivity|]. intros _. split; [discriminate|]. intros t E.
      assert (X : has_prefix (c :: s) (str "-") = true) by (apply has_prefix_eq; eauto). congruence.
Qed.
Lemma strip_found : forall n args next r, (length args <= n)%nat -> strip_flags [] args = next :: r ->
  exists pre post, args = pre ++ next :: post /\ before_command pre /\ name_like next /\ args_minus_first [] args next = pre ++ post.
Proof.
  induction n as [|n IH]; intros args next r Ln S; (destruct args as [|s args]; [discriminate|]); [cbn [length] in Ln; lia|].
  cbn [strip_flags] in S. cbn [args_minus_first].
  destruct (bytes_eqb s (str "--")) eqn:D; [discriminate|]. apply bytes_eqb_neq in D.
  destruct (takes_value [] s) eqn:T.
  - apply takes_value_hides in T; [|exact D]. destruct args as [|v [|w args]]; [discriminate..|].
    apply IH in S; [|cbn [length] in *; lia]. destruct S as (pre & post & E & B & NL & M). exists (s :: v :: pre), post.
    rewrite E. split; [reflexivity|]. split; [apply before_hidden; assumption|]. split; [exact NL|].
    rewrite E in M. rewrite M. reflexivity.
  - assert (NH : ~ hides s) by (intros H; apply takes_value_hides in H; [congruence|exact D]).
    destruct (negb (len s =? 0)%Z && negb (has_prefix s (str "-"))) eqn:C.
    + injection S as -> _. exists [], args. apply name_like_conds in C. split; [reflexivity|]. split; [constructor|]. split; [exact C|].
      apply name_like_conds in C. apply andb_true_iff in C as [_ C]. rewrite C, bytes_eqb_refl. reflexivity.
    + apply IH in S; [|cbn [length] in *; lia]. destruct S as (pre & post & E & B & NL & M). exists (s :: pre), post.
      rewrite E. split; [reflexivity|].
      assert (SS : s = [] \/ exists t, s = str "-" ++ t).
      { apply andb_false_iff in C as [C|C].
        - left. destruct s as [|c s]; [reflexivity|]. unfold len in C. cbn [length] in C. lia.
        - right. apply negb_false_iff in C. apply has_prefix_eq in C. exact C. }
      split; [apply before_alone; assumption|]. split; [exact NL|]. rewrite E in M. rewrite M.
      replace (negb (has_prefix s (str "-")) && bytes_eqb s next) with false; [reflexivity|].
      symmetry. destruct SS as [->|(t & ->)].
      * destruct NL as [NL _]. destruct next; [congruence|reflexivity].
      * rewrite dash_prefix. reflexivity.
Qed.
Lemma strip_before : forall pre next post, before_command pre -> name_like next ->
  exists r, strip_flags [] (pre ++ next :: post) = next :: r /\ args_minus_first [] (pre ++ next :: post) next = pre ++ post.
Proof.
  intros pre next post B NL. induction B as [|s t pre H B (r & S & M)|s pre SS NH ND B (r & S & M)].
  - cbn [app strip_flags args_minus_first]. replace (bytes_eqb next (str "--")) with false.
    2:{ symmetry. apply bytes_eqb_neq. intros ->. destruct NL as [_ NL]. exact (NL (str "-") eq_refl). }
    replace (takes_value [] next) with false.
    2:{ symmetry. destruct (takes_value [] next) eqn:T; [|reflexivity]. destruct NL as [_ NL]. unfold takes_value in T.
        apply orb_true_iff in T as [T|T]; repeat (apply andb_true_iff in T as [T _]); apply has_prefix_eq in T as (t & ->);
          [exfalso; exact (NL (str "-" ++ t) eq_refl)|exfalso; exact (NL t eq_refl)]. }
    pose proof (proj1 (name_like_conds next) NL) as C. rewrite C. apply andb_true_iff in C as [_ C]. rewrite C, bytes_eqb_refl.
    eexists. split; reflexivity.
  - assert (D : s <> str "--") by (destruct H as (_ & D & _); exact D).
    cbn [app strip_flags args_minus_first]. rewrite (proj2 (bytes_eqb_neq _ _) D), (proj2 (takes_value_hides s D) H).
    rewrite M. destruct (pre ++ next :: post) as [|u rest] eqn:E; [destruct pre; discriminate|]. exists r. split; [exact S|reflexivity].
  - cbn [app strip_flags args_minus_first]. rewrite (proj2 (bytes_eqb_neq _ _) ND).
    replace (takes_value [] s) with false.
    2:{ symmetry. destruct (takes_value [] s) eqn:T; [|reflexivity]. apply takes_value_hides in T; [contradiction|exact ND]. }
    replace (negb (len s =? 0)%Z && negb (has_prefix s (str "-"))) with false.
    2:{ symmetry. destruct SS as [->|(t & ->)]; [reflexivity|]. rewrite dash_prefix. apply andb_false_r. }
    replace (negb (has_prefix s (str "-")) && bytes_eqb s next) with false.
    2:{ symmetry. destruct SS as [->|(t & ->)]; [|rewrite dash_prefix; reflexivity]. destruct NL as [NL _]. destruct next; [congruence|reflexivity]. }
    rewrite M. exists r. split; [exact S|reflexivity].
Qed.

Lemma find_next_extract : forall name, find_next name = Some ExtractCommand <-> extract_name name.
Proof.
  intros name. unfold find_next, extract_name. cbn [subcommands find existsb snd].
  destruct (bytes_eqb name (str "extract")) eqn:E1; [apply bytes_eqb_eq in E1; cbn [orb]; intuition|].
  destruct (bytes_eqb name (str "ext")) eqn:E2; [apply bytes_eqb_eq in E2; cbn [orb]; intuition|].
  apply bytes_eqb_neq in E1, E2. cbn [orb].
  split; [|intros [E|E]; congruence].
  destruct (bytes_eqb name (str "help")); [discriminate|]. destruct (bytes_eqb name (str "completion")); [discriminate|]. cbn [orb].
  destruct (bytes_eqb name (str "__complete")); [discriminate|]. destruct (bytes_eqb name (str "__completeNoDesc")); discriminate.
Qed.
Lemma extract_name_like : forall name, extract_name name -> name_like name.
Proof. intros name [->| ->]; (split; [discriminate|intros t [=]]). Qed.
Lemma find_command_extract : forall args args', find_command args = inr (ExtractCommand, args') <->
  exists pre name post, args = pre ++ name :: post /\ before_command pre /\ extract_name name /\ args' = pre ++ post.
Proof.
  intros args args'. unfold find_command. split.
  - destruct (strip_flags [] args) as [|next r] eqn:S; [discriminate|].
    destruct (find_next next) as [c|] eqn:F; [|discriminate]. intros [= -> <-]. apply find_next_extract in F.
    apply (strip_found (length args)) in S; [|lia]. destruct S as (pre & post & E & B & _ & M).
    exists pre, next, post. auto.
  - intros (pre & name & post & -> & B & X & ->). destruct (strip_before pre name post B (extract_name_like _ X)) as (r & S & M).
    rewrite S, (proj2 (find_next_extract name) X), M. reflexivity.
Qed.

(** ** Decisions *)
Lemma execute_reads : forall args l words, reads args l words ->
  (is_on l HelpWanted true -> execute_extract args = ShowHelp ExtractCommand)
  /\ (is_on l HelpWanted false -> (forall url, words <> [url]) -> execute_extract args = Fails (WrongNumberOfArgs (len words)))
  /\ forall url p i t, is_on l HelpWanted false -> words = [url] ->
       is_on l IncludePrivateSuffix p -> is_on l IgnoreSubDomains i -> is_on l ToPunyCode t ->
       execute_extract args = RunExtract p i t url.
Proof.
  intros args l words R. unfold execute_extract. fold flags.
  assert (E : parse_args flags args [] = inr (rev l ++ [], words)) by (apply parse_args_reads; exists l; auto).
  rewrite app_nil_r in E. rewrite E. split; [|split].
  - intros H. apply get_bool_on in H. rewrite H. reflexivity.
  - intros H N. apply get_bool_on in H. rewrite H. destruct words as [|u [|u' w]]; [reflexivity|exfalso; exact (N u eq_refl)|reflexivity].
  - intros url p i t H -> P I T. apply get_bool_on in H, P, I, T. rewrite H, P, I, T. reflexivity.
Qed.
Lemma reads_dec : forall args, (exists l words, reads args l words) \/ forall l words, ~ reads args l words.
Proof.
  intros args. destruct (parse_args flags args []) as [e|[vals words]] eqn:E.
  - right. intros l words R. assert (X : parse_args flags args [] = inr (rev l ++ [], words)) by (apply parse_args_reads; exists l; auto). congruence.
  - apply parse_args_reads in E as (l & R & _). left. eauto.
Qed.
Lemma execute_unreadable : forall args, (forall l words, ~ reads args l words) -> exists e, execute_extract args = Fails e.
Proof.
  intros args N. unfold execute_extract. fold flags. destruct (parse_args flags args []) as [e|[vals words]] eqn:E; [eauto|].
  apply parse_args_reads in E as (l & R & _). exfalso. exact (N _ _ R).
Qed.
Lemma is_on_one : forall l v, exists b, forall b', is_on l v b' <-> b' = b.
Proof. intros l v. exists (get_bool (rev l) v). intros b'. rewrite <- get_bool_on. split; congruence. Qed.
Lemma reads_fun : forall args l1 w1 l2 w2, reads args l1 w1 -> reads args l2 w2 -> l1 = l2 /\ w1 = w2.
Proof.
  intros args l1 w1 l2 w2 R1 R2.
  assert (E1 : parse_args flags args [] = inr (rev l1 ++ [], w1)) by (apply parse_args_reads; exists l1; auto).
  assert (E2 : parse_args flags args [] = inr (rev l2 ++ [], w2)) by (apply parse_args_reads; exists l2; auto).
  rewrite E1 in E2. rewrite !app_nil_r in E2. injection E2 as E <-. split; [|reflexivity].
  rewrite <- (rev_involutive l1), <- (rev_involutive l2), E. reflexivity.
Qed.
Lemma execute_run : forall args p i t url, execute_extract args = RunExtract p i t url <->
  exists l, reads args l [url] /\ is_on l HelpWanted false /\ is_on l IncludePrivateSuffix p /\ is_on l IgnoreSubDomains i /\ is_on l ToPunyCode t.
Proof.
  intros args p i t url. split.
  - unfold execute_extract. fold flags. destruct (parse_args flags args []) as [e|[vals words]] eqn:E; [discriminate|].
    apply parse_args_reads in E as (l & R & ->). rewrite app_nil_r. destruct (get_bool (rev l) HelpWanted) eqn:H; [discriminate|].
    destruct words as [|u [|u' w]]; [discriminate| |discriminate]. intros [= P I T <-]. exists l.
    split; [exact R|]. repeat split; apply get_bool_on; assumption.
  - intros (l & R & H & P & I & T). destruct (execute_reads _ _ _ R) as (_ & _ & X). apply X; auto.
Qed.

Lemma decide_name : forall version name args, extract_name name -> decide version (name :: args) = execute_extract args.
Proof.
  intros version name args X. unfold decide.
  assert (E : find_command (name :: args) = inr (ExtractCommand, args)).
  { apply find_command_extract. exists [], name, args. split; [reflexivity|]. split; [constructor|]. auto. }
  rewrite E. reflexivity.
Qed.
Lemma c96_extract : forall version name args l words, extract_name name -> reads args l words ->
  (is_on l HelpWanted true -> decide version (name :: args) = ShowHelp ExtractCommand)
  /\ (is_on l HelpWanted false -> (forall url, words <> [url]) -> decide version (name :: args) = Fails (WrongNumberOfArgs (len words)))
  /\ forall url p i t, is_on l HelpWanted false -> words = [url] ->
       is_on l IncludePrivateSuffix p -> is_on l IgnoreSubDomains i -> is_on l ToPunyCode t ->
       decide version (name :: args) = RunExtract p i t url.
Proof. intros version name args l words X R. rewrite decide_name by exact X. apply execute_reads. exact R. Qed.
Lemma c96_unreadable : forall version name args, extract_name name -> (forall l words, ~ reads args l words) ->
  exists e, decide version (name :: args) = Fails e.
Proof. intros version name args X N. rewrite decide_name by exact X. apply execute_unreadable. exact N. Qed.
Lemma decide_run : forall version args p i t url, decide version args = RunExtract p i t url <->
  exists args', find_command args = inr (ExtractCommand, args') /\ execute_extract args' = RunExtract p i t url.
Proof.
  intros version args p i t url. unfold decide. split.
  - destruct (find_command args) as [e|[c args']]; [discriminate|]. destruct c; try discriminate.
    + unfold execute_root. cbv zeta. destruct (parse_args _ args' []) as [e|[vals rest]]; [discriminate|].
      destruct (get_bool vals HelpWanted); [discriminate|]. destruct (negb (len version =? 0)%Z && get_bool vals VersionWanted); discriminate.
    + intros E. eauto.
  - intros (args' & -> & E). exact E.
Qed.
Lemma c96_iff : forall version args p i t url, decide version args = RunExtract p i t url <->
  exists pre name post l, args = pre ++ name :: post /\ before_command pre /\ extract_name name /\ reads (pre ++ post) l [url]
    /\ is_on l HelpWanted false /\ is_on l IncludePrivateSuffix p /\ is_on l IgnoreSubDomains i /\ is_on l ToPunyCode t.
Proof.
  intros version args p i t url. rewrite decide_run. split.
  - intros (args' & F & E). apply find_command_extract in F as (pre & name & post & -> & B & X & ->).
    apply execute_run in E as (l & R & E). exists pre, name, post, l. auto.
  - intros (pre & name & post & l & -> & B & X & R & E). exists (pre ++ post). split.
    + apply find_command_extract. exists pre, name, post. auto.
    + apply execute_run. exists l. auto.
Qed.

(** Options and words *)
Lemma parse_option : forall s l args vals, spells s l -> parse_args flags (s :: args) vals = parse_args flags args (rev l ++ vals).
Proof.
  intros s l args vals S. destruct (argument_cases s) as [W|[->|[(x & t & ->)|(x & t & N & ->)]]].
  - exfalso. apply spells_dash_first in S as (y & u & ->). exact (word_not_dash _ _ W).
  - exfalso. exact (spells_not_end _ S).
  - rewrite parse_dashes. destruct (spells_dashes _ _ _ S) as (v & b & ->).
    assert (E : parse_long flags (x :: t) vals = inr ((v, b) :: vals)) by (apply parse_long_reads; exists v, b; eauto).
    rewrite E. reflexivity.
  - rewrite parse_dash by exact N. apply spells_dash in S; [|exact N].
    assert (E : parse_short flags (x :: t) vals = inr (rev l ++ vals)) by (apply parse_short_reads; exists l; auto).
    rewrite E. reflexivity.
Qed.
Lemma parse_swap : forall args1 s l w args2 vals, spells s l -> word w ->
  parse_args flags (args1 ++ s :: w :: args2) vals = parse_args flags (args1 ++ w :: s :: args2) vals
  \/ exists vals' r1 r2, parse_args flags (args1 ++ s :: w :: args2) vals = inr (vals', r1)
       /\ parse_args flags (args1 ++ w :: s :: args2) vals = inr (vals', r2) /\ length r1 = length r2 /\ (2 <= length r1)%nat.
Proof.
  induction args1 as [|a args1 IH]; intros s l w args2 vals S W; cbn [app].
  - left. rewrite (parse_option _ _ _ _ S), !(parse_word _ _ _ W), (parse_option _ _ _ _ S). reflexivity.
  - specialize (fun vals => IH s l w args2 vals S W).
    destruct (argument_cases a) as [A|[->|[(x & t & ->)|(x & t & N & ->)]]].
    + rewrite !(parse_word _ _ _ A). destruct (IH vals) as [->|(v & r1 & r2 & -> & -> & E & G)]; [left; reflexivity|].
      right. exists v, (a :: r1), (a :: r2). cbn [length]. repeat split; lia.
    + rewrite !parse_end. right. do 3 eexists. split; [reflexivity|]. split; [reflexivity|].
      rewrite !app_length. cbn [length]. lia.
    + rewrite !parse_dashes. destruct (parse_long flags (x :: t) vals) as [e|v]; [left; reflexivity|apply IH].
    + rewrite !parse_dash by exact N. destruct (parse_short flags (x :: t) vals) as [e|v]; [left; reflexivity|apply IH].
Qed.
Lemma c96_swap : forall version name args1 s l w args2, extract_name name -> spells s l -> word w ->
  decide version (name :: args1 ++ s :: w :: args2) = decide version (name :: args1 ++ w :: s :: args2).
Proof.
  intros version name args1 s l w args2 X S W. rewrite !decide_name by exact X. unfold execute_extract. fold flags.
  destruct (parse_swap args1 s l w args2 [] S W) as [->|(v & r1 & r2 & -> & -> & E & G)]; [reflexivity|].
  destruct (get_bool v HelpWanted); [reflexivity|].
  destruct r1 as [|a [|b r1]]; [cbn [length] in G; lia..|]. destruct r2 as [|a' [|b' r2]]; [discriminate..|].
  unfold len. rewrite E. reflexivity.
Qed.
Lemma is_on_none : forall v, is_on [] v false.
Proof. intros v. right. split; [reflexivity|]. intros b []. Qed.
Lemma c96_end : forall version name args l url p i t, extract_name name -> reads args l [] ->
  is_on l HelpWanted false -> is_on l IncludePrivateSuffix p -> is_on l IgnoreSubDomains i -> is_on l ToPunyCode t ->
  (forall u, In u args -> u <> str "--") ->
  decide version (name :: args ++ [str "--"; url]) = RunExtract p i t url.
Proof.
  intros version name args l url p i t X R H P I T N.
  assert (R' : reads (args ++ [str "--"; url]) l [url]).
  { clear H P I T. remember [] as w eqn:Ew. induction R as [|args|s l args l' words S R IH|s args l words W R IH]; cbn [app].
    - apply reads_end.
    - exfalso. exact (N (str "--") (or_introl eq_refl) eq_refl).
    - apply reads_option; [exact S|]. apply IH; [exact Ew|]. intros u I. apply N. right. exact I.
    - discriminate. }
  destruct (c96_extract version name _ _ _ X R') as (_ & _ & G). apply G; auto.
Qed.
Lemma c96_plain : forall version name url, extract_name name -> word url -> decide version [name; url] = RunExtract false false false url.
Proof.
  intros version name url X W. destruct (c96_extract version name [url] [] [url] X (reads_word _ _ _ _ W reads_none)) as (_ & _ & G).
  apply G; auto using is_on_none.
Qed.
Lemma reads_words : forall args l words, reads args l words -> ~ In (str "--") args -> Forall word words.
Proof.
  intros args l words R. induction R as [|args|s l args l' words S R IH|s args l words W R IH]; intros N.
  - constructor.
  - exfalso. apply N. left. reflexivity.
  - apply IH. intros I. apply N. right. exact I.
  - constructor; [exact W|]. apply IH. intros I. apply N. right. exact I.
Qed.
Lemma c96_dash : forall version args p i t url, decide version args = RunExtract p i t url -> ~ In (str "--") args -> word url.
Proof.
  intros version args p i t url E N. apply c96_iff in E as (pre & name & post & l & -> & _ & _ & R & _).
  apply reads_words in R; [inversion R; assumption|]. intros I. apply N. apply in_app_or in I. apply in_or_app.
  destruct I as [I|I]; [left; exact I|right; right; exact I].
Qed.
Lemma c96_unknown : forall version (name : bytes) (args : list bytes), name <> [] -> (forall t, name <> str "-" ++ t) ->
  ~ In name [str "extract"; str "ext"; str "help"; str "completion"; str "__complete"; str "__completeNoDesc"] ->
  decide version (name :: args) = Fails (UnknownCommand name).
Proof.
  intros version name args N D I. unfold decide, find_command.
  destruct (strip_before [] name args before_none (conj N D)) as (r & S & _). cbn [app] in S. rewrite S.
  assert (F : find_next name = None).
  { unfold find_next. cbn [subcommands find existsb snd]. cbn [In] in I.
    rewrite !(proj2 (bytes_eqb_neq name _)); [reflexivity| | | | | |]; intros ->; apply I; auto 10. }
  rewrite F. reflexivity.
Qed.

(** ** The whole program *)
Section Main.
Context {E : Type}.
Variable step : forall R : Type, sys R -> E -> R -> E -> Prop.

Lemma c97_extract : forall to_ascii hardcoded ext quote version name args l url p i t e m tr e' m' o,
  extract_name name -> reads args l [url] ->
  is_on l HelpWanted false -> is_on l IncludePrivateSuffix p -> is_on l IgnoreSubDomains i -> is_on l ToPunyCode t ->
  runs step (cmd_main to_ascii hardcoded ext quote version (name :: args)) e m tr e' m' o ->
  exists f r er output, runs step (new to_ascii hardcoded (mkListParams [] p)) e m tr e' m' (Ret (f, None))
    /\ extract ext (trie_in m' f) (mkParams url i t) = Ret (r, er)
    /\ shows url r (host_type_number (r_host_type r)) output
    /\ o = Ret (Exit 0 (match er with Some er => error_line (err_message quote er) | None => [] end ++ output)).
Proof.
  intros to_ascii hardcoded ext quote version name args l url p i t e m tr e' m' o X R H P I T K.
  destruct (c96_extract version name _ _ _ X R) as (_ & _ & G). unfold cmd_main in K. rewrite (G url p i t) in K by auto.
  apply runs_bind in K as (tr1 & e1 & m1 & o1 & K & K2). apply c47_shows in K as (f & r & er & output & N & EX & SH & ->).
  destruct K2 as (tr2 & -> & K2). apply runs_ret in K2 as (-> & -> & -> & ->). rewrite app_nil_r. exists f, r, er, output. auto.
Qed.
Lemma c97_otherwise : forall to_ascii hardcoded ext quote version args e m tr e' m' o,
  (forall p i t url, decide version args <> RunExtract p i t url) ->
  runs step (cmd_main to_ascii hardcoded ext quote version args) e m tr e' m' o ->
  tr = [] /\ e' = e /\ m' = m /\ (o = Ret (Exit 0 []) \/ o = Ret (Exit 1 []) \/ exists d, o = Ret (CobraText d)).
Proof.
  intros to_ascii hardcoded ext quote version args e m tr e' m' o N K. unfold cmd_main in K.
  destruct (decide version args) as [p i t u| | | | |]; [exfalso; exact (N _ _ _ _ eq_refl)|..];
    apply runs_ret in K as (-> & -> & -> & ->); eauto 10.
Qed.
Lemma c97_status : forall to_ascii hardcoded ext quote version args e m tr e' m' o,
  runs step (cmd_main to_ascii hardcoded ext quote version args) e m tr e' m' o ->
  (exists d, o = Ret (CobraText d)) \/ exists s output, o = Ret (Exit s output)
    /\ (s = 0%Z /\ (forall er, decide version args <> Fails er) \/ s = 1%Z /\ output = [] /\ exists er, decide version args = Fails er).
Proof.
  intros to_ascii hardcoded ext quote version args e m tr e' m' o K. unfold cmd_main in K.
  destruct (decide version args) as [p i t u| | | | |er].
  - apply runs_bind in K as (tr1 & e1 & m1 & o1 & K & K2). apply c47_shows in K as (f & r & er & output & N & EX & SH & ->).
    destruct K2 as (tr2 & -> & K2). apply runs_ret in K2 as (-> & -> & -> & ->). right. do 2 eexists. split; [reflexivity|]. left. split; [reflexivity|]. discriminate.
  - apply runs_ret in K as (-> & -> & -> & ->). right. do 2 eexists. split; [reflexivity|]. left. split; [reflexivity|discriminate].
  - apply runs_ret in K as (-> & -> & -> & ->). left. eauto.
  - apply runs_ret in K as (-> & -> & -> & ->). left. eauto.
  - apply runs_ret in K as (-> & -> & -> & ->). left. eauto.
  - apply runs_ret in K as (-> & -> & -> & ->). right. do 2 eexists. split; [reflexivity|]. right. eauto.
Qed.
Lemma c97_fails : forall to_ascii hardcoded ext quote version name args e m tr e' m' o, extract_name name ->
  (forall l words, reads args l words -> is_on l HelpWanted false /\ forall url, words <> [url]) ->
  runs step (cmd_main to_ascii hardcoded ext quote version (name :: args)) e m tr e' m' o ->
  tr = [] /\ e' = e /\ m' = m /\ o = Ret (Exit 1 []).
Proof.
  intros to_ascii hardcoded ext quote version name args e m tr e' m' o X N K.
  assert (F : exists er, decide version (name :: args) = Fails er).
  { destruct (reads_dec args) as [(l & words & R)|U].
    - destruct (N _ _ R) as [H W]. destruct (c96_extract version name _ _ _ X R) as (_ & G & _). rewrite (G H W). eauto.
    - apply c96_unreadable; assumption. }
  destruct F as [er F]. unfold cmd_main in K. rewrite F in K. apply runs_ret in K as (-> & -> & -> & ->). auto.
Qed.
End Main.
