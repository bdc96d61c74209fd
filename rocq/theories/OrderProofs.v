(** OrderProofs.v - whose list a call of Extract uses. *)

From Verif Require Import Base BaseFacts Chars Str Trie Extract Psl ListSpec World Update Calls UpdateSpec
  WorldFacts CallFacts CallProofs NewSpec ErrSpec LibSpec LinSpec LinProofs OrderSpec.
From Coq Require Import ZifyBool ZifyNat ZifyN.

Lemma before_snoc : forall l m a b, before (l ++ [m]) a b <-> before l a b \/ (b = m /\ In a l).
Proof.
  intros l m a b. split.
  - intros (x & y & z & E). destruct z as [|z0 z] using rev_ind.
    + right. change (x ++ a :: y ++ [b]) with (x ++ (a :: y) ++ [b]) in E. rewrite app_assoc in E. apply app_inj_tail in E as [-> ->].
      split; [reflexivity|]. apply in_or_app. right. left. reflexivity.
    + left. clear IHz. exists x, y, z. change (x ++ a :: y ++ b :: z ++ [z0]) with (x ++ a :: y ++ (b :: z) ++ [z0]) in E.
      rewrite (app_assoc y) in E. change (x ++ a :: (y ++ b :: z) ++ [z0]) with (x ++ (a :: y ++ b :: z) ++ [z0]) in E.
      rewrite app_assoc in E. apply app_inj_tail in E as [-> _]. reflexivity.
  - intros [(x & y & z & ->)|(-> & Hi)].
    + exists x, y, (z ++ [m]). rewrite <- app_assoc. cbn [app]. rewrite <- app_assoc. reflexivity.
    + apply in_split in Hi as (x & y & ->). exists x, y, []. rewrite <- app_assoc. reflexivity.
Qed.
Lemma asked_snoc : forall i l m, asked i (l ++ [m]) = asked i l ++ match m with Asks k e => if Nat.eqb k i then [e] else [] | _ => [] end.
Proof. intros i l m. unfold asked. rewrite flat_map_app. cbn [flat_map]. rewrite app_nil_r. reflexivity. Qed.
Lemma in_snoc : forall (l : list moment) m x, In x (l ++ [m]) <-> In x l \/ x = m.
Proof. intros l m x. rewrite in_app_iff. cbn [In]. intuition. Qed.

Definition begun (l : list moment) : list nat := flat_map (fun x => match x with Begins i _ => [i] | _ => [] end) l.
Lemma begun_in : forall l i c, In (Begins i c) l -> In i (begun l).
Proof. intros l i c H. unfold begun. apply in_flat_map. exists (Begins i c). split; [exact H|left; reflexivity]. Qed.
Lemma begun_snoc : forall l m, begun (l ++ [m]) = begun l ++ match m with Begins i _ => [i] | _ => [] end.
Proof. intros l m. unfold begun. rewrite flat_map_app. cbn [flat_map]. rewrite app_nil_r. reflexivity. Qed.
Lemma before_in : forall l a b, before l a b -> In a l /\ In b l.
Proof.
  intros l a b (x & y & z & ->). split; apply in_or_app; right; [left; reflexivity|right; apply in_or_app; right; left; reflexivity].
Qed.

Section Order.
Variable to_ascii : bytes -> option bytes.
Variable hardcoded : bytes.
Variable ext : idna.

(** Call [i] has taken effect with this answer. *)
Definition acted (calls : nat -> option running) (l : list moment) (i : nat) (a : answer) : Prop :=
  In (Ends i (Ret a)) l \/ exists c tr, calls i = Some (mkRunning c tr (Some a)).
Definition begot (calls : nat -> option running) (l : list moment) (f w : nat) (v : view) : Prop :=
  exists n x, In (Begins w (CallNew n)) l /\ acted calls l w (FromNew (f, None))
    /\ new_asks (lp_path n) (asked w l) x /\ v = view_of hardcoded (lp_private n) x.
Definition set_by (calls : nat -> option running) (l : list moment) (f w : nat) (v : view) : Prop :=
  begot calls l f w v
  \/ exists w0 v0 text, begot calls l f w0 v0 /\ In (Begins w (CallUpdate f)) l /\ acted calls l w (FromUpdate None)
       /\ update_asks (v_path v0) (asked w l) (inr text) /\ v = mkView (v_path v0) (v_private v0) text.
(** No Update of [f] that satisfies [D] began after [w] had ended. *)
Definition newest (l : list moment) (f w : nat) (D : nat -> Prop) : Prop :=
  forall w' o, In (Begins w' (CallUpdate f)) l -> D w' -> ~ before l (Ends w o) (Begins w' (CallUpdate f)).

Record inv (views : nat -> option view) (known : list nat) (calls : nat -> option running) (l : list moment) : Prop := {
  i_run : forall i c tr a, calls i = Some (mkRunning c tr a) ->
    In (Begins i c) l /\ asked i l = tr /\ (forall o, ~ In (Ends i o) l) /\ may_call known c;
  i_fresh : forall i, ~ In i (begun l) -> asked i l = [] /\ forall o, ~ In (Ends i o) l;
  i_known : forall f, In f known -> exists k, In (Ends k (Ret (FromNew (f, None)))) l;
  i_maker : forall f k k', acted calls l k (FromNew (f, None)) -> acted calls l k' (FromNew (f, None)) -> k = k';
  i_made : forall f k, acted calls l k (FromNew (f, None)) -> views f <> None;
  i_views : forall f v, views f = Some v -> exists w, set_by calls l f w v
    /\ newest l f w (fun w' => acted calls l w' (FromUpdate None));
  i_extract : forall j f p a, In (Begins j (CallExtract f p)) l -> acted calls l j a ->
    exists w v rules r e, a = FromExtract (r, e) /\ set_by calls l f w v /\ used_rules to_ascii (v_text v) (v_private v) rules
      /\ extracts ext rules p r e /\ In f known
      /\ (forall c o, ~ before l (Ends j o) (Begins w c))
      /\ newest l f w (fun w' => before l (Ends w' (Ret (FromUpdate None))) (Begins j (CallExtract f p))) }.

Lemma uniq_begins : forall l i c c', NoDup (begun l) -> In (Begins i c) l -> In (Begins i c') l -> c = c'.
Proof.
  intros l i c c' U. induction l as [|m l IH]; intros H H'; [destruct H|].
  assert (U' : NoDup (begun l)). { unfold begun in *. cbn [flat_map] in U. destruct m; cbn [app] in U; [inversion U; assumption|exact U|exact U]. }
  assert (X : forall c0, m = Begins i c0 -> forall c1, ~ In (Begins i c1) l).
  { intros c0 -> c1 Hi. unfold begun in U. cbn [flat_map app] in U. inversion U as [|? ? N _]; subst. apply N. eapply begun_in. exact Hi. }
  destruct H as [H|H], H' as [H'|H']; [congruence| | |auto].
  - destruct (X c H c' H').
  - destruct (X c' H' c H).
Qed.

Lemma inv_first : inv no_views [] no_calls [].
Proof.
  constructor; try discriminate.
  - intros i _. split; [reflexivity|intros o []].
  - intros f [].
  - intros f k k' [[]|(c & tr & H)]; discriminate.
  - intros f k [[]|(c & tr & H)]; discriminate.
  - intros j f p a [].
Qed.

(** A moment is added that is no effect: a beginning, a question or an end. *)
Lemma inv_moment : forall views known calls l m known' calls', NoDup (begun (l ++ [m])) -> inv views known calls l ->
  (forall i c tr a, calls' i = Some (mkRunning c tr a) ->
     In (Begins i c) (l ++ [m]) /\ asked i (l ++ [m]) = tr /\ (forall o, ~ In (Ends i o) (l ++ [m])) /\ may_call known' c) ->
  (forall i, ~ In i (begun (l ++ [m])) -> asked i (l ++ [m]) = [] /\ forall o, ~ In (Ends i o) (l ++ [m])) ->
  (forall f, In f known' -> In f known \/ exists k, m = Ends k (Ret (FromNew (f, None)))) -> (forall f, In f known -> In f known') ->
  (forall i a, acted calls' (l ++ [m]) i a <-> acted calls l i a) ->
  (forall i e, m = Asks i e -> exists c tr, calls i = Some (mkRunning c tr None)) ->
  inv views known' calls' (l ++ [m]).
Proof.
  intros views known calls l m known' calls' U I R Fr Kn Kn' Ac As. pose proof (i_run _ _ _ _ I) as Run.
  assert (Keep : forall i a, acted calls l i a -> asked i (l ++ [m]) = asked i l).
  { intros i a A. rewrite asked_snoc. destruct m as [k c|k e|k o]; try apply app_nil_r.
    destruct (Nat.eqb_spec k i) as [->|]; [|apply app_nil_r]. exfalso. destruct (As i e eq_refl) as (c & tr & E).
    destruct A as [A|(c' & tr' & A)]; [|congruence]. destruct (Run _ _ _ _ E) as (_ & _ & N & _). exact (N _ A). }
  assert (New : forall i c, m = Begins i c -> ~ In i (begun l)).
  { intros i c -> Hi. rewrite begun_snoc in U. apply NoDup_remove_2 in U. apply U. rewrite app_nil_r. exact Hi. }
  assert (Begot : forall f w v, begot calls l f w v -> begot calls' (l ++ [m]) f w v).
  { intros f w v (n & x & B & A & Q & E). exists n, x. split; [apply in_snoc; auto|]. split; [apply Ac; exact A|].
    rewrite (Keep _ _ A). auto. }
  assert (SetBy : forall f w v, set_by calls l f w v -> set_by calls' (l ++ [m]) f w v).
  { intros f w v [B|(w0 & v0 & text & B & Bw & A & Q & E)]; [left; apply Begot; exact B|]. right. exists w0, v0, text.
    split; [apply Begot; exact B|]. split; [apply in_snoc; auto|]. split; [apply Ac; exact A|]. rewrite (Keep _ _ A). auto. }
  assert (SetBegun : forall f w v, set_by calls l f w v -> In w (begun l)).
  { intros f w v [(n & x & B & _)|(w0 & v0 & text & _ & B & _)]; eapply begun_in; exact B. }
  assert (ActBegun : forall i a, acted calls l i a -> In i (begun l)).
  { intros i a [A|(c & tr & A)].
    - destruct (in_dec Nat.eq_dec i (begun l)) as [H|H]; [exact H|]. destruct (proj2 (i_fresh _ _ _ _ I i H) _ A).
    - eapply begun_in. apply (Run _ _ _ _ A). }
  constructor.
  - exact R.
  - exact Fr.
  - intros f Hf. destruct (Kn f Hf) as [H|(k & ->)].
    + destruct (i_known _ _ _ _ I f H) as (k & Hk). exists k. apply in_snoc. auto.
    + exists k. apply in_snoc. auto.
  - intros f k k' A A'. apply Ac in A, A'. exact (i_maker _ _ _ _ I f k k' A A').
  - intros f k A. apply Ac in A. exact (i_made _ _ _ _ I f k A).
  - intros f v V. destruct (i_views _ _ _ _ I f v V) as (w & S & N). exists w. split; [apply SetBy; exact S|].
    intros w' o B D P. apply Ac in D. apply before_snoc in P as [P|(E & P)].
    + apply (N w' o); [apply (before_in _ _ _ P)|exact D|exact P].
    + apply (New _ _ (eq_sym E)). exact (ActBegun _ _ D).
  - intros j f p a B A. apply Ac in A. apply in_snoc in B as [B|E].
    + destruct (i_extract _ _ _ _ I j f p a B A) as (w & v & rules & r & e & Ea & S & Us & X & Kf & Nb & N).
      exists w, v, rules, r, e. split; [exact Ea|]. split; [apply SetBy; exact S|]. split; [exact Us|]. split; [exact X|].
      split; [apply Kn'; exact Kf|]. split.
      * intros c o P. apply before_snoc in P as [P|(E & P)]; [exact (Nb _ _ P)|]. apply (New _ _ (eq_sym E)). exact (SetBegun _ _ _ S).
      * intros w' o Bw D P. apply before_snoc in D as [D|(E & D)].
        -- apply before_snoc in P as [P|(E & P)].
           ++ apply (N w' o); [apply (before_in _ _ _ P)|exact D|exact P].
           ++ apply (New _ _ (eq_sym E)). apply before_in in D as [D _].
              destruct (in_dec Nat.eq_dec w' (begun l)) as [H|H]; [exact H|]. destruct (proj2 (i_fresh _ _ _ _ I w' H) _ D).
        -- exfalso. apply (New _ _ (eq_sym E)). eapply begun_in. exact B.
    + exfalso. apply (New _ _ (eq_sym E)). exact (ActBegun _ _ A).
Qed.

Lemma atomic_inv : forall views known calls l, atomic to_ascii hardcoded ext views known calls l -> NoDup (begun l) -> inv views known calls l.
Proof.
  intros views known calls l H.
  induction H as [|views known calls l i c H IH Ci Mc|views known calls l i c tr e H IH Ci|views known calls l i c tr a views' H IH Ci Ef|views known calls l i c tr a H IH Ci];
    intros U.
  - apply inv_first.
  - (* begins *)
    assert (U0 := U). rewrite begun_snoc in U0. apply NoDup_remove in U0 as [U1 U2]. rewrite app_nil_r in U1, U2. specialize (IH U1).
    destruct (i_fresh _ _ _ _ IH i U2) as (Ai & Ni).
    apply (inv_moment views known calls l); [exact U|exact IH| | |auto|auto| |intros ? ? Z; discriminate].
    + intros k c' tr a E. rewrite upd_at in E. destruct (Nat.eqb_spec k i) as [->|Nk].
      * injection E as <- <- <-. split; [apply in_snoc; auto|]. rewrite asked_snoc, app_nil_r. split; [exact Ai|]. split; [|exact Mc].
        intros o Hi. apply in_snoc in Hi as [Hi|Hi]; [exact (Ni _ Hi)|discriminate].
      * destruct (i_run _ _ _ _ IH k c' tr a E) as (B & A & N & M). split; [apply in_snoc; auto|]. rewrite asked_snoc, app_nil_r. split; [exact A|].
        split; [|exact M]. intros o Hi. apply in_snoc in Hi as [Hi|Hi]; [exact (N _ Hi)|discriminate].
    + intros k Nk. rewrite begun_snoc in Nk. destruct (i_fresh _ _ _ _ IH k) as (A & N); [intros Hi; apply Nk; apply in_or_app; auto|].
      rewrite asked_snoc, app_nil_r. split; [exact A|]. intros o Hi. apply in_snoc in Hi as [Hi|Hi]; [exact (N _ Hi)|discriminate].
    + intros k a. unfold acted. split.
      * intros [A|(c' & tr & A)]; [apply in_snoc in A as [A|A]; [auto|discriminate]|]. rewrite upd_at in A.
        destruct (Nat.eqb_spec k i) as [->|Nk]; [discriminate|]. eauto.
      * intros [A|(c' & tr & A)]; [left; apply in_snoc; auto|]. right. exists c', tr. rewrite upd_at.
        destruct (Nat.eqb_spec k i) as [->|Nk]; [congruence|exact A].
  - (* asks *)
    rewrite begun_snoc, app_nil_r in U. specialize (IH U). destruct (i_run _ _ _ _ IH _ _ _ _ Ci) as (Bi & Ai & Ni & Mi).
    apply (inv_moment views known calls l); [rewrite begun_snoc, app_nil_r; exact U|exact IH| | |auto|auto| |].
    + intros k c' tr' a E. rewrite upd_at in E. rewrite asked_snoc. destruct (Nat.eqb_spec k i) as [->|Nk].
      * injection E as <- <- <-. split; [apply in_snoc; auto|]. rewrite Nat.eqb_refl, Ai. split; [reflexivity|]. split; [|exact Mi].
        intros o Hi. apply in_snoc in Hi as [Hi|Hi]; [exact (Ni _ Hi)|discriminate].
      * destruct (i_run _ _ _ _ IH k c' tr' a E) as (B & A & N & M). split; [apply in_snoc; auto|].
        replace (Nat.eqb i k) with false by lia. rewrite app_nil_r. split; [exact A|]. split; [|exact M].
        intros o Hi. apply in_snoc in Hi as [Hi|Hi]; [exact (N _ Hi)|discriminate].
    + intros k Nk. rewrite begun_snoc, app_nil_r in Nk. destruct (i_fresh _ _ _ _ IH k Nk) as (A & N). rewrite asked_snoc.
      destruct (Nat.eqb_spec i k) as [->|_]; [exfalso; apply Nk; eapply begun_in; exact Bi|]. rewrite app_nil_r. split; [exact A|].
      intros o Hi. apply in_snoc in Hi as [Hi|Hi]; [exact (N _ Hi)|discriminate].
    + intros k a. unfold acted. split.
      * intros [A|(c' & tr' & A)]; [apply in_snoc in A as [A|A]; [auto|discriminate]|]. rewrite upd_at in A.
        destruct (Nat.eqb_spec k i) as [->|Nk]; [discriminate|]. eauto.
      * intros [A|(c' & tr' & A)]; [left; apply in_snoc; auto|]. right. exists c', tr'. rewrite upd_at.
        destruct (Nat.eqb_spec k i) as [->|Nk]; [congruence|exact A].
    + intros k e' Z. injection Z as <- _. eauto.
  - (* takes effect *)
    specialize (IH U). destruct (i_run _ _ _ _ IH _ _ _ _ Ci) as (Bi & Ai & Ni & Mi).
    set (calls' := upd calls i (Some (mkRunning c tr (Some a)))).
    assert (Ac : forall k b, acted calls' l k b <-> acted calls l k b \/ (k = i /\ b = a)).
    { intros k b. unfold acted, calls'. split.
      - intros [A|(c' & tr' & A)]; [auto|]. rewrite upd_at in A. destruct (Nat.eqb_spec k i) as [->|Nk].
        + injection A as <- <- <-. auto.
        + left. right. eauto.
      - intros [[A|(c' & tr' & A)]|(-> & ->)]; [auto| |].
        + right. exists c', tr'. rewrite upd_at. destruct (Nat.eqb_spec k i) as [->|Nk]; [congruence|exact A].
        + right. exists c, tr. rewrite upd_at, Nat.eqb_refl. reflexivity. }
    assert (Not : forall b, ~ acted calls l i b). { intros b [A|(c' & tr' & A)]; [exact (Ni _ A)|congruence]. }
    assert (Run : forall k c' tr' b, calls' k = Some (mkRunning c' tr' b) ->
      In (Begins k c') l /\ asked k l = tr' /\ (forall o, ~ In (Ends k o) l) /\ may_call known c').
    { intros k c' tr' b E. unfold calls' in E. rewrite upd_at in E. destruct (Nat.eqb_spec k i) as [->|Nk].
      - injection E as <- <- <-. auto.
      - exact (i_run _ _ _ _ IH k c' tr' b E). }
    assert (Begot : forall f w v, begot calls l f w v -> begot calls' l f w v).
    { intros f w v (n & x & B & A & Q & E). exists n, x. split; [exact B|]. split; [apply Ac; auto|]. auto. }
    assert (SetBy : forall f w v, set_by calls l f w v -> set_by calls' l f w v).
    { intros f w v [B|(w0 & v0 & text & B & Bw & A & Q & E)]; [left; apply Begot; exact B|]. right. exists w0, v0, text.
      split; [apply Begot; exact B|]. split; [exact Bw|]. split; [apply Ac; auto|]. auto. }
    (* the other invariants, apart from the views *)
    assert (Maker : (forall f, a = FromNew (f, None) -> views f = None) ->
      forall f k k', acted calls' l k (FromNew (f, None)) -> acted calls' l k' (FromNew (f, None)) -> k = k').
    { intros Fr f k k' A A'. apply Ac in A, A'. destruct A as [A|(-> & E)], A' as [A'|(-> & E')]; [|exfalso|exfalso|reflexivity].
      - exact (i_maker _ _ _ _ IH f k k' A A').
      - apply (i_made _ _ _ _ IH f k A). apply Fr. auto.
      - apply (i_made _ _ _ _ IH f k' A'). apply Fr. auto. }
    assert (Extr : (forall f p, c = CallExtract f p -> exists w v rules r e, a = FromExtract (r, e) /\ set_by calls' l f w v
         /\ used_rules to_ascii (v_text v) (v_private v) rules /\ extracts ext rules p r e /\ In f known
         /\ (forall c o, ~ before l (Ends i o) (Begins w c))
         /\ newest l f w (fun w' => before l (Ends w' (Ret (FromUpdate None))) (Begins i (CallExtract f p)))) ->
      forall j f p b, In (Begins j (CallExtract f p)) l -> acted calls' l j b ->
      exists w v rules r e, b = FromExtract (r, e) /\ set_by calls' l f w v /\ used_rules to_ascii (v_text v) (v_private v) rules
      /\ extracts ext rules p r e /\ In f known
      /\ (forall c o, ~ before l (Ends j o) (Begins w c))
      /\ newest l f w (fun w' => before l (Ends w' (Ret (FromUpdate None))) (Begins j (CallExtract f p)))).
    { intros Own j f p b B A. apply Ac in A as [A|(-> & ->)].
      - destruct (i_extract _ _ _ _ IH j f p b B A) as (w & v & rules & r & e & Ea & S & Rest). exists w, v, rules, r, e.
        split; [exact Ea|]. split; [apply SetBy; exact S|exact Rest].
      - apply Own. exact (uniq_begins _ _ _ _ U Bi B). }
    assert (Same : (forall f, a = FromNew (f, None) -> False) -> a <> FromUpdate None -> views' = views ->
      (forall f p, c = CallExtract f p -> exists w v rules r e, a = FromExtract (r, e) /\ set_by calls' l f w v
         /\ used_rules to_ascii (v_text v) (v_private v) rules /\ extracts ext rules p r e /\ In f known
         /\ (forall c o, ~ before l (Ends i o) (Begins w c))
         /\ newest l f w (fun w' => before l (Ends w' (Ret (FromUpdate None))) (Begins i (CallExtract f p)))) ->
      inv views' known calls' l).
    { intros N1 N2 -> Own. constructor; [exact Run|exact (i_fresh _ _ _ _ IH)|exact (i_known _ _ _ _ IH)| | | |].
      - apply Maker. intros f E. destruct (N1 f E).
      - intros f k A. apply Ac in A as [A|(_ & E)]; [exact (i_made _ _ _ _ IH f k A)|destruct (N1 f (eq_sym E))].
      - intros f v V. destruct (i_views _ _ _ _ IH f v V) as (w & S & N). exists w. split; [apply SetBy; exact S|].
        intros w' o B D. apply Ac in D as [D|(_ & E)]; [exact (N w' o B D)|congruence].
      - apply Extr. exact Own. }
    destruct Ef as [n tr f x V A|f v tr e V A|f v tr text V A|f v rules p r e V Us X].
    + (* New *)
      constructor; [exact Run|exact (i_fresh _ _ _ _ IH)|exact (i_known _ _ _ _ IH)| | | |].
      * apply Maker. intros f' E. injection E as <-. exact V.
      * intros f' k A'. apply Ac in A' as [A'|(_ & E)]; unfold with_view; destruct (Nat.eqb_spec f' f); try discriminate.
        -- exact (i_made _ _ _ _ IH f' k A').
        -- congruence.
      * intros f' v V'. unfold with_view in V'. destruct (Nat.eqb_spec f' f) as [->|Nf].
        -- injection V' as <-. exists i. split.
           ++ left. exists n, x. split; [exact Bi|]. split; [apply Ac; auto|]. rewrite Ai. auto.
           ++ intros w' o B D P. apply before_in in P as [P _]. exact (Ni _ P).
        -- destruct (i_views _ _ _ _ IH f' v V') as (w & S & N). exists w. split; [apply SetBy; exact S|].
           intros w' o B D. apply Ac in D as [D|(_ & E)]; [exact (N w' o B D)|discriminate].
      * apply Extr. discriminate.
    + (* failing Update *)
      apply Same; try discriminate. reflexivity.
    + (* Update *)
      destruct (i_views _ _ _ _ IH f v V) as (w & S & N).
      assert (exists w0 v0, begot calls l f w0 v0 /\ v_path v = v_path v0 /\ v_private v = v_private v0) as (w0 & v0 & B0 & Ep & Eb).
      { destruct S as [B|(w0 & v0 & text0 & B & _ & _ & _ & ->)]; [eauto|]. exists w0, v0. auto. }
      constructor; [exact Run|exact (i_fresh _ _ _ _ IH)|exact (i_known _ _ _ _ IH)| | | |].
      * apply Maker. discriminate.
      * intros f' k A'. apply Ac in A' as [A'|(_ & E)]; [|discriminate]. unfold with_view. destruct (Nat.eqb_spec f' f); [discriminate|].
        exact (i_made _ _ _ _ IH f' k A').
      * intros f' v' V'. unfold with_view in V'. destruct (Nat.eqb_spec f' f) as [->|Nf].
        -- injection V' as <-. exists i. split.
           ++ right. exists w0, v0, text. split; [apply Begot; exact B0|]. split; [exact Bi|]. split; [apply Ac; auto|].
              rewrite Ai, <- Ep, <- Eb. auto.
           ++ intros w' o B D P. apply before_in in P as [P _]. exact (Ni _ P).
        -- destruct (i_views _ _ _ _ IH f' v' V') as (w1 & S1 & N1). exists w1. split; [apply SetBy; exact S1|].
           intros w' o B D. apply Ac in D as [D|(-> & E)]; [exact (N1 w' o B D)|].
           pose proof (uniq_begins _ _ _ _ U Bi B) as Z. congruence.
      * apply Extr. discriminate.
    + (* Extract *)
      apply Same; try discriminate; [reflexivity|]. intros f' p' Z. injection Z as <- <-.
      destruct (i_views _ _ _ _ IH f v V) as (w & S & N). exists w, v, rules, r, e. split; [reflexivity|]. split; [apply SetBy; exact S|].
      split; [exact Us|]. split; [exact X|]. split; [exact Mi|]. split.
      * intros c o P. apply before_in in P as [P _]. exact (Ni _ P).
      * intros w' o B D. apply (N w' o B). left. apply (before_in _ _ _ D).
  - (* ends *)
    rewrite begun_snoc, app_nil_r in U. specialize (IH U). destruct (i_run _ _ _ _ IH _ _ _ _ Ci) as (Bi & Ai & Ni & Mi).
    apply (inv_moment views known calls l); [rewrite begun_snoc, app_nil_r; exact U|exact IH| | | | | |intros ? ? Z; discriminate].
    + intros k c' tr' b E. rewrite upd_at in E. destruct (Nat.eqb_spec k i) as [->|Nk]; [discriminate|].
      destruct (i_run _ _ _ _ IH k c' tr' b E) as (B & A & N & M). split; [apply in_snoc; auto|]. rewrite asked_snoc, app_nil_r.
      split; [exact A|]. split.
      * intros o Hi. apply in_snoc in Hi as [Hi|Hi]; [exact (N _ Hi)|congruence].
      * destruct c'; cbn [may_call] in *; [exact I| |]; apply in_or_app; auto.
    + intros k Nk. rewrite begun_snoc, app_nil_r in Nk. destruct (i_fresh _ _ _ _ IH k Nk) as (A & N). rewrite asked_snoc, app_nil_r.
      split; [exact A|]. intros o Hi. apply in_snoc in Hi as [Hi|Hi]; [exact (N _ Hi)|]. injection Hi as -> _. apply Nk. eapply begun_in. exact Bi.
    + intros f Hf. apply in_app_or in Hf as [Hf|Hf]; [|auto]. right. exists i.
      destruct a as [[g [e|]]|u|[r e]]; cbn [returned] in Hf; try destruct Hf as [<-|[]]; [destruct Hf| |destruct Hf|destruct Hf]. reflexivity.
    + intros f Hf. apply in_or_app. auto.
    + intros k b. unfold acted. split.
      * intros [A|(c' & tr' & A)].
        -- apply in_snoc in A as [A|A]; [auto|]. injection A as -> ->. eauto.
        -- rewrite upd_at in A. destruct (Nat.eqb_spec k i) as [->|Nk]; [discriminate|]. eauto.
      * intros [A|(c' & tr' & A)]; [left; apply in_snoc; auto|]. destruct (Nat.eq_dec k i) as [->|Nk].
        -- rewrite Ci in A. injection A as <- <- <-. left. apply in_snoc. auto.
        -- right. exists c', tr'. rewrite upd_at. replace (Nat.eqb k i) with false by lia. exact A.
Qed.

(** Numbers of calls are not used twice. *)
Lemma seen_begun : forall q l, seen to_ascii hardcoded ext q l -> NoDup (begun l) /\ forall i, In i (begun l) -> i < p_count q.
Proof.
  intros q l H. induction H as [|m known ts n tr l c H (U & B) M|m known ts1 i c p ts2 n tr tr' m' p' l H (U & B) A|m known ts1 i c r ts2 n tr l H (U & B)];
    cbn [p_count first_pool] in *.
  - split; [constructor|intros i []].
  - rewrite begun_snoc. split.
    + apply NoDup_rev in U. rewrite <- (rev_involutive (begun l ++ [n])). apply NoDup_rev. rewrite rev_app_distr. constructor; [|exact U].
      intros Hi. apply in_rev in Hi. specialize (B n Hi). lia.
    + intros i Hi. apply in_app_or in Hi as [Hi|[<-|[]]]; [specialize (B i Hi)|]; lia.
  - assert (E : begun (l ++ map (Asks i) tr') = begun l).
    { unfold begun. rewrite flat_map_app. assert (X : flat_map (fun x => match x with Begins k _ => [k] | _ => [] end) (map (Asks i) tr') = []).
      { clear. induction tr' as [|e tr' IH]; [reflexivity|]. exact IH. } rewrite X. apply app_nil_r. }
    rewrite E. auto.
  - rewrite begun_snoc, app_nil_r. auto.
Qed.

Lemma ends_ret : forall views known calls l, atomic to_ascii hardcoded ext views known calls l ->
  forall i o, In (Ends i o) l -> exists a, o = Ret a.
Proof.
  intros views known calls l H.
  induction H as [|views known calls l i c H IH Ci Mc|views known calls l i c tr e H IH Ci|views known calls l i c tr a views' H IH Ci Ef|views known calls l i c tr a H IH Ci];
    intros k o Hi; [destruct Hi| | |exact (IH k o Hi)|]; apply in_snoc in Hi as [Hi|Hi]; try exact (IH k o Hi); try discriminate.
  injection Hi as _ ->. eauto.
Qed.

Lemma c87 : forall q l j f p o, seen to_ascii hardcoded ext q l -> In (Begins j (CallExtract f p)) l -> In (Ends j o) l ->
  exists w v rules r e, o = Ret (FromExtract (r, e)) /\ left_by hardcoded l f w v
    /\ used_rules to_ascii (v_text v) (v_private v) rules /\ extracts ext rules p r e
    /\ (forall c, ~ before l (Ends j o) (Begins w c))
    /\ forall w' o', before l (Ends w' (Ret (FromUpdate None))) (Begins j (CallExtract f p)) ->
         ~ before l (Ends w o') (Begins w' (CallUpdate f)).
Proof.
  intros q l j f p o H B E. destruct (c85_sim _ _ _ q l H) as (views & calls & A & _). destruct (seen_begun q l H) as [U _].
  pose proof (atomic_inv _ _ _ _ A U) as I. destruct (ends_ret _ _ _ _ A j o E) as (a & ->).
  destruct (i_extract _ _ _ _ I j f p a B (or_introl E)) as (w & v & rules & r & e & -> & S & Us & X & Kf & Nb & N).
  exists w, v, rules, r, e. split; [reflexivity|].
  assert (Made : forall w0 v0, begot calls l f w0 v0 -> made hardcoded l f w0 v0).
  { intros w0 v0 (n & x & B0 & A0 & Q & Ev). exists n, x. split; [exact B0|]. split; [|auto].
    destruct (i_known _ _ _ _ I f Kf) as (k & Hk). rewrite (i_maker _ _ _ _ I f w0 k A0 (or_introl Hk)). exact Hk. }
  split.
  { destruct S as [S|(w0 & v0 & text & S & Bw & _ & Q & Ev)]; [left; auto|]. right. exists w0, v0, text. auto. }
  split; [exact Us|]. split; [exact X|]. split; [intros c; apply Nb|].
  intros w' o' D P. apply (N w' o'); [apply (before_in _ _ _ P)|exact D|exact P].
Qed.

(** Extractors are used after New has returned them. *)
Definition on (c : call) (f : nat) : Prop := match c with CallNew _ => False | CallUpdate g | CallExtract g _ => g = f end.
Lemma atomic_known : forall views known calls l, atomic to_ascii hardcoded ext views known calls l ->
  (forall f, In f known -> exists k, In (Ends k (Ret (FromNew (f, None)))) l)
  /\ forall i c f, In (Begins i c) l -> on c f -> exists k, before l (Ends k (Ret (FromNew (f, None)))) (Begins i c).
Proof.
  intros views known calls l H.
  induction H as [|views known calls l i c H (K & B) Ci Mc|views known calls l i c tr e H (K & B) Ci|views known calls l i c tr a views' H IH Ci Ef|views known calls l i c tr a H (K & B) Ci].
  - split; [intros f []|intros i c f []].
  - split.
    + intros f Hf. destruct (K f Hf) as (k & Hk). exists k. apply in_snoc. auto.
    + intros k c' f Hi On. apply in_snoc in Hi as [Hi|Hi].
      * destruct (B k c' f Hi On) as (k0 & P). exists k0. apply before_snoc. auto.
      * injection Hi as -> ->. assert (Hf : In f known) by (destruct c; cbn [on may_call] in *; [destruct On|subst; exact Mc..]).
        destruct (K f Hf) as (k0 & Hk). exists k0. apply before_snoc. auto.
  - split.
    + intros f Hf. destruct (K f Hf) as (k & Hk). exists k. apply in_snoc. auto.
    + intros k c' f Hi On. apply in_snoc in Hi as [Hi|Hi]; [|discriminate].
      destruct (B k c' f Hi On) as (k0 & P). exists k0. apply before_snoc. auto.
  - exact IH.
  - split.
    + intros f Hf. apply in_app_or in Hf as [Hf|Hf].
      * exists i. apply in_snoc. right. destruct a as [[g [e|]]|u|[r e]]; cbn [returned] in Hf; try destruct Hf as [<-|[]]; [destruct Hf| |destruct Hf|destruct Hf]. reflexivity.
      * destruct (K f Hf) as (k & Hk). exists k. apply in_snoc. auto.
    + intros k c' f Hi On. apply in_snoc in Hi as [Hi|Hi]; [|discriminate].
      destruct (B k c' f Hi On) as (k0 & P). exists k0. apply before_snoc. auto.
Qed.
Lemma made_first : forall q l f w v i c, seen to_ascii hardcoded ext q l -> made hardcoded l f w v -> In (Begins i c) l -> on c f ->
  before l (Ends w (Ret (FromNew (f, None)))) (Begins i c).
Proof.
  intros q l f w v i c H (n & x & _ & E & _) B On. destruct (c85_sim _ _ _ q l H) as (views & calls & A & _). destruct (seen_begun q l H) as [U _].
  pose proof (atomic_inv _ _ _ _ A U) as I. destruct (proj2 (atomic_known _ _ _ _ A) i c f B On) as (k & P).
  rewrite (i_maker _ _ _ _ I f w k (or_introl E) (or_introl (proj1 (before_in _ _ _ P)))). exact P.
Qed.

(** After an Update that overlaps no other Update of its extractor. *)
Lemma c87_after : forall q l w j f p o, seen to_ascii hardcoded ext q l -> In (Begins w (CallUpdate f)) l ->
  before l (Ends w (Ret (FromUpdate None))) (Begins j (CallExtract f p)) -> In (Ends j o) l ->
  (forall k, In (Begins k (CallUpdate f)) l -> k <> w ->
     (exists o', before l (Ends k o') (Begins w (CallUpdate f))) \/ before l (Ends j o) (Begins k (CallUpdate f))) ->
  exists w0 v0 text rules r e, made hardcoded l f w0 v0 /\ update_asks (v_path v0) (asked w l) (inr text)
    /\ used_rules to_ascii text (v_private v0) rules /\ o = Ret (FromExtract (r, e)) /\ extracts ext rules p r e.
Proof.
  intros q l w j f p o H Bw P E Alone. destruct (seen_begun q l H) as [U _].
  destruct (c87 q l j f p o H (proj2 (before_in _ _ _ P)) E) as (w1 & v & rules & r & e & -> & L & Us & X & Nb & N).
  destruct L as [M|(w0 & v0 & text & M & B1 & Q & Ev)].
  - exfalso. apply (N w (Ret (FromNew (f, None))) P).
    apply (made_first q l f w1 v w (CallUpdate f) H M Bw). reflexivity.
  - destruct (Nat.eq_dec w1 w) as [->|Nw].
    + exists w0, v0, text, rules, r, e. subst v. auto.
    + exfalso. destruct (Alone w1 B1 Nw) as [(o' & P')|P']; [exact (N w o' P P')|exact (Nb _ P')].
Qed.
(** Before the first Update. *)
Lemma c87_unchanged : forall q l j f p o, seen to_ascii hardcoded ext q l -> In (Begins j (CallExtract f p)) l -> In (Ends j o) l ->
  (forall k, In (Begins k (CallUpdate f)) l -> before l (Ends j o) (Begins k (CallUpdate f))) ->
  exists w v rules r e, made hardcoded l f w v /\ used_rules to_ascii (v_text v) (v_private v) rules
    /\ o = Ret (FromExtract (r, e)) /\ extracts ext rules p r e.
Proof.
  intros q l j f p o H B E Al. destruct (c87 q l j f p o H B E) as (w & v & rules & r & e & Eo & L & Us & X & Nb & N).
  destruct L as [M|(w0 & v0 & text & M & B1 & Q & Ev)].
  - exists w, v, rules, r, e. auto.
  - exfalso. exact (Nb _ (Al w B1)).
Qed.
End Order.
