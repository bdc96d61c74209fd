(** SeenProofs.v - calls that run pointer by pointer take effect one after the other. *)

From Verif Require Import Base BaseFacts Str Trie Extract Psl ListSpec World Update UpdateSpec Calls WorldFacts CallFacts CallProofs NewSpec ErrSpec LibSpec LibProofs
  LinSpec LinProofs LinExact FinishSpec RaceSpec Heap HeapSpec HeapFacts HeapProofs Weak WeakSpec WeakProofs WeakAny WeakRace SeenSpec.
From Coq Require Import ZifyBool ZifyNat ZifyN.

Section Seen.
Variable to_ascii : bytes -> option bytes.
Variable hardcoded : bytes.
Variable ext : idna.
Notation seen := (seen to_ascii hardcoded ext).
Notation hseen := (hseen to_ascii hardcoded ext).
Notation wseen := (wseen to_ascii hardcoded ext).
Notation inv := (HeapProofs.inv to_ascii hardcoded ext).

(** ** Ordered memory *)

Lemma worked_seen : forall i tr' q q' l, worked i tr' q q' -> seen q l -> seen q' (l ++ map (Asks i) tr').
Proof.
  intros i tr' q q' l [(-> & ->)|(m & k & ts1 & c0 & p & ts2 & n0 & tr0 & m' & p' & -> & A & ->)] H; [cbn [map]; rewrite app_nil_r; exact H|].
  eapply seen_asks; eassumption.
Qed.
Lemma inv_seen : forall hq l, hseen hq l -> exists q, inv hq q /\ seen q l.
Proof.
  intros hq l H. induction H as [|h known ts n tr l c H (q & I1 & S) May|h known ts1 i c p ts2 n tr tr' h' p' l H (q & I1 & S) Ad|h known hts1 i c r hts2 n tr l H (q & I1 & S)].
  - exists first_pool. split; [apply inv_first|apply seen_first].
  - destruct (inv_starts _ _ _ _ _ _ _ _ _ c I1 May) as (_ & I2). eexists. split; [exact I2|].
    destruct q as [m known' ts' n' tr0]. pose proof (i_known _ _ _ _ _ I1) as E1. pose proof (i_count _ _ _ _ _ I1) as E2. pose proof (i_trace _ _ _ _ _ I1) as E3.
    cbn [hp_known hp_count hp_trace p_known p_count p_trace p_memory p_threads] in *. subst known' n' tr0. apply seen_begins; assumption.
  - destruct (inv_worked _ _ _ _ _ _ _ _ _ _ _ _ _ _ _ _ I1 Ad) as (q' & W & I2). exists q'. split; [exact I2|]. eapply worked_seen; eassumption.
  - assert (X : exists m ts1 ts2, q = mkPool m known (ts1 ++ mkThread i c (Done r) :: ts2) n tr /\ inv (mkHPool h (returned r ++ known) (hts1 ++ hts2) n tr) (mkPool m (returned r ++ known) (ts1 ++ ts2) n tr)).
    { apply (inv_ends _ _ _ _ _ _ _ _ _ _ _ _ _ I1). }
    destruct X as (m & ts1 & ts2 & -> & I2). eexists. split; [exact I2|]. apply (seen_ends _ _ _ _ _ _ _ c). exact S.
Qed.
Lemma c106_pointers : forall hq l, hseen hq l -> exists views calls, atomic to_ascii hardcoded ext views (hp_known hq) calls l
  /\ forall f, In f (hp_known hq) -> exists v t, views f = Some v
       /\ x_path (h_extractor (hp_heap hq) f) = v_path v /\ x_private (h_extractor (hp_heap hq) f) = v_private v
       /\ holds (h_region (hp_heap hq) (x_trie (h_extractor (hp_heap hq) f))) t
       /\ exists rules, used_rules to_ascii (v_text v) (v_private v) rules /\ build_trie rules = Ret t.
Proof.
  intros hq l H. destruct (inv_seen hq l H) as (q & I1 & S).
  destruct (c85_sim to_ascii hardcoded ext q l S) as (views & calls & A & OT & OX & F & _ & _ & Sv & _).
  exists views, calls. rewrite (i_known _ _ _ _ _ I1). split; [exact A|]. intros f K. specialize (Sv f). destruct (views f) as [v|] eqn:Ev; [|contradiction].
  destruct Sv as (_ & P1 & P2 & (rules & U & B)). exists v, (trie_in (p_memory q) f). split; [reflexivity|].
  rewrite (i_ext _ _ _ _ _ I1). split; [exact P1|]. split; [exact P2|]. split; [|exists rules; auto].
  destruct (known_quiet _ _ _ q f (i_steps _ _ _ _ _ I1) K) as (A1 & N). apply rept_holds. apply (i_rep _ _ _ _ _ I1); [|exact N].
  rewrite (i_next _ _ _ _ _ I1). exact A1.
Qed.
Lemma c106_pointers_all : forall hq, hpool_steps to_ascii hardcoded ext first_hpool hq <-> exists l, hseen hq l.
Proof.
  intros hq. split.
  - intros H. remember first_hpool as h0 eqn:E0. induction H as [q|q1 q2 q3 H IH S]; [subst q; exists []; apply hseen_first|]. destruct (IH E0) as (l & L).
    destruct S as [h known ts n tr c May|h known ts1 i c p ts2 n tr tr' h' p' Ad|h known ts1 i c r ts2 n tr].
    + eexists. apply hseen_begins; eassumption.
    + eexists. eapply hseen_asks; eassumption.
    + eexists. eapply hseen_ends; eassumption.
  - intros (l & H). induction H as [|h known ts n tr l c H IH May|h known ts1 i c p ts2 n tr tr' h' p' l H IH Ad|h known ts1 i c r ts2 n tr l H IH];
      [apply hsteps_none|..]; (eapply hsteps_more; [exact IH|]); [apply hstarts|apply hworks|apply hreturns]; assumption.
Qed.

(** ** Memory that orders nothing *)

Lemma c106_all : forall T q, careful_steps to_ascii hardcoded ext T first_wpool q <-> exists l, wseen (undisturbed T) q l.
Proof.
  intros T q. split.
  - intros H. remember first_wpool as h0 eqn:E0. induction H as [q|q1 q2 q3 H IH S O]; [subst q; exists []; apply wseen_first|]. destruct (IH E0) as (l & L).
    destruct S as [w known ts n tr d c May|w known ts1 i c p v ts2 n tr d tr' w' v' p' Adv|w known ts1 i c r v ts2 n tr d]; cbn [wp_threads] in O.
    + eexists. apply wseen_begins; eassumption.
    + eexists. eapply wseen_asks; eassumption.
    + eexists. eapply wseen_ends; eassumption.
  - intros (l & H). induction H as [|w known ts n tr d l c H IH May ts' O|w known ts1 i c p v ts2 n tr d tr' w' v' p' l H IH Adv O|w known ts1 i c r v ts2 n tr d l H IH O];
      [apply careful_none|..]; (eapply careful_more; [exact IH| |exact O]); [apply wstarts|apply wworks|apply wreturns]; assumption.
Qed.

Lemma begun : forall ok q l, wseen ok q l -> forall th, In th (wp_threads q) -> In (Begins (wt_number th) (wt_call th)) l.
Proof.
  intros ok q l H. induction H as [|w known ts n tr d l c H IH May ts' O|w known ts1 i c p v ts2 n tr d tr' w' v' p' l H IH Adv O|w known ts1 i c r v ts2 n tr d l H IH O];
    cbn [wp_threads first_wpool] in *; intros th I1.
  - destruct I1.
  - apply in_or_app. apply in_app_or in I1 as [I1|[<-|[]]]; [left; auto|right; left; reflexivity].
  - apply in_or_app. left. apply in_app_or in I1 as [I1|[<-|I1]].
    + apply IH. apply in_or_app. auto.
    + apply (IH (mkWThread i c p v)). apply in_elt.
    + apply IH. apply in_or_app. right. right. exact I1.
  - apply in_or_app. left. apply IH. apply in_or_app. apply in_app_or in I1 as [I1|I1]; [left; exact I1|right; right; exact I1].
Qed.
Lemma same_grow : forall T l m l1 l', Forall2 (same_moment T l) l1 l' -> Forall2 (same_moment T (l ++ m)) l1 l'.
Proof.
  intros T l m l1 l' H. induction H as [|x y l1 l' [->|(i & f & p & r1 & r2 & E1 & E2 & E3 & I1)] H IH]; constructor; try exact IH; [left; reflexivity|].
  right. exists i, f, p, r1, r2. repeat split; auto. apply in_or_app. auto.
Qed.
Lemma same_more : forall T l l' m a b, same_moments T l l' -> same_moment T (l ++ m) a b -> m = [a] -> same_moments T (l ++ m) (l' ++ [b]).
Proof.
  intros T l l' m a b H S ->. apply Forall2_app; [apply same_grow; exact H|constructor; [exact S|constructor]].
Qed.
Lemma same_more_all : forall T l l' m, same_moments T l l' -> same_moments T (l ++ m) (l' ++ m).
Proof.
  intros T l l' m H. apply Forall2_app; [apply same_grow; exact H|]. generalize (l ++ m). intros l0. clear.
  induction m; constructor; [left; reflexivity|assumption].
Qed.

Lemma weak_seen : forall T q l, wseen (undisturbed T) q l -> exists hq gs l', hseen hq l' /\ rrel T to_ascii hardcoded ext q hq gs /\ same_moments T l l'.
Proof.
  intros T q l H. induction H as [|w known ts n tr d l c H (hq & gs & l' & Hs & Rel & Sm) May ts' O
    |w known ts1 i c p v ts2 n tr d tr' w' v' p' l H (hq & gs & l' & Hs & Rel & Sm) Adv O|w known ts1 i c r v ts2 n tr d l H (hq & gs & l' & Hs & Rel & Sm) O].
  - exists first_hpool, [], []. split; [apply hseen_first|]. split; [apply first_rrel|constructor].
  - destruct hq as [h hknown hts hn htr]. pose proof (rr_known _ _ _ _ _ _ _ Rel) as E2. pose proof (rr_count _ _ _ _ _ _ _ Rel) as E3.
    pose proof (rr_trace _ _ _ _ _ _ _ Rel) as E4. cbn [wp_known wp_count wp_trace hp_known hp_count hp_trace] in *. subst hknown hn htr.
    destruct (start_rrel _ _ _ _ _ _ _ _ _ _ _ _ _ _ Rel May O) as (gs' & Rel'). do 3 eexists. split; [apply hseen_begins; [exact Hs|exact May]|].
    split; [exact Rel'|]. apply same_more_all. exact Sm.
  - destruct hq as [h hknown hts hn htr]. pose proof (rr_known _ _ _ _ _ _ _ Rel) as E2. pose proof (rr_count _ _ _ _ _ _ _ Rel) as E3.
    pose proof (rr_trace _ _ _ _ _ _ _ Rel) as E4. pose proof (rr_like _ _ _ _ _ _ _ Rel) as E1.
    cbn [wp_known wp_count wp_trace wp_threads hp_known hp_count hp_trace hp_threads] in *. subst hknown hn htr.
    apply Forall2_app_inv_l in E1. destruct E1 as (hts1 & hts0 & L1 & L0 & ->). inversion L0 as [|th ht l0 hts2 Lk L2]; subst.
    destruct ht as [hi hc hp]. pose proof Lk as (X1 & X2 & _). cbn [wt_number wt_call ht_number ht_call] in X1, X2. subst hi hc.
    destruct (work_rrel _ _ _ _ _ _ _ _ _ _ _ _ _ _ _ _ _ _ _ _ _ _ _ _ Rel L1 L2 Lk Adv) as (hq' & gs' & (_ & F) & Rel').
    exists hq', gs', (l' ++ map (Asks i) tr'). split; [apply F; exact Hs|]. split; [exact Rel'|]. apply same_more_all. exact Sm.
  - destruct hq as [h hknown hts hn htr]. pose proof (rr_known _ _ _ _ _ _ _ Rel) as E2. pose proof (rr_count _ _ _ _ _ _ _ Rel) as E3.
    pose proof (rr_trace _ _ _ _ _ _ _ Rel) as E4. pose proof (rr_like _ _ _ _ _ _ _ Rel) as E1.
    cbn [wp_known wp_count wp_trace wp_threads hp_known hp_count hp_trace hp_threads] in *. subst hknown hn htr.
    apply Forall2_app_inv_l in E1. destruct E1 as (hts1 & hts0 & L1 & L0 & ->). inversion L0 as [|th ht l0 hts2 Lk L2]; subst.
    destruct ht as [hi hc hp]. pose proof Lk as (X1 & X2 & _). cbn [wt_number wt_call ht_number ht_call] in X1, X2. subst hi hc.
    destruct (return_rrel _ _ _ _ _ _ _ _ _ _ _ _ _ _ _ _ _ _ _ _ Rel L1 L2 Lk) as (hq' & gs' & r' & (_ & F) & Er & Rel').
    exists hq', gs', (l' ++ [Ends i r']). split; [apply F; exact Hs|]. split; [exact Rel'|].
    eapply same_more; [exact Sm| |reflexivity]. destruct (settled T i c) eqn:Se; [left; rewrite (Er eq_refl); reflexivity|].
    unfold settled in Se. apply orb_false_iff in Se as (Se1 & Se2). destruct c as [k|f|f p]; try discriminate Se2. right. exists i, f, p, r, r'.
    repeat split; auto. apply in_or_app. left. apply (begun _ _ _ H (mkWThread i (CallExtract f p) (HDone r) v)). apply in_elt.
Qed.
Lemma c106_weak : forall T q l, wseen (undisturbed T) q l -> exists l' views calls, same_moments T l l' /\ atomic to_ascii hardcoded ext views (wp_known q) calls l'
  /\ forall f, In f (wp_known q) -> exists v t, views f = Some v
       /\ as_path (latest (w_cell (wp_weak q) (PathAt f))) = v_path v /\ w_private (wp_weak q) f = v_private v
       /\ holds (last_written (wp_weak q) (as_trie (latest (w_cell (wp_weak q) (TrieAt f))))) t
       /\ exists rules, used_rules to_ascii (v_text v) (v_private v) rules /\ build_trie rules = Ret t.
Proof.
  intros T q l H. destruct (weak_seen T q l H) as (hq & gs & l' & Hs & Rel & Sm). destruct (c106_pointers hq l' Hs) as (views & calls & A & X).
  destruct (rrel_same _ _ _ _ _ _ _ Rel) as [E1 E2 E3 E4 E5 E6].
  exists l', views, calls. split; [exact Sm|]. rewrite E2. split; [exact A|]. intros f K. destruct (X f K) as (v & t & Ev & P1 & P2 & Ho & B).
  exists v, t. rewrite <- (E6 f) in P1, P2, Ho. cbn [x_path x_private x_trie] in *. split; [exact Ev|]. split; [exact P1|]. split; [exact P2|]. split; [|exact B].
  eapply holds_ext; [|exact Ho]. intros i. symmetry. apply E5.
Qed.
(** If no Update runs together with an Extract of its extractor, everything seen can be seen of the machine. *)
Lemma c106_calm : forall q l, wseen (undisturbed (fun _ => true)) q l -> exists views calls, atomic to_ascii hardcoded ext views (wp_known q) calls l.
Proof.
  intros q l H. destruct (c106_weak _ q l H) as (l' & views & calls & Sm & A & _). exists views, calls.
  assert (E : l = l'); [|rewrite E; exact A]. clear - Sm. unfold same_moments in Sm. remember l as l0 in Sm at 1. clear Heql0.
  induction Sm as [|a b l l' [->|(i & f & p & r1 & r2 & _ & _ & E & _)] Sm IH]; [reflexivity|f_equal; exact IH|discriminate E].
Qed.

(** ** The other way round *)

Lemma runs_seen : forall h hp h' hp', thread_runs h hp h' hp' -> forall known ts1 i c ts2 n tr l,
  hseen (mkHPool h known (ts1 ++ mkHThread i c hp :: ts2) n tr) l -> hseen (mkHPool h' known (ts1 ++ mkHThread i c hp' :: ts2) n tr) l.
Proof.
  intros h hp h' hp' T. induction T as [h hp|h hp h1 hp1 h2 hp2 Ad T IH]; intros known ts1 i c ts2 n tr l H; [exact H|].
  apply IH. pose proof (hseen_asks _ _ _ _ _ _ _ _ _ _ _ _ _ _ _ _ H Ad) as X. cbn [map] in X. rewrite !app_nil_r in X. exact X.
Qed.
Lemma clean_seen : forall q l, seen q l -> exists hq, clean hq q /\ hseen hq l.
Proof.
  intros q l H. induction H as [|m known ts n tr l c H (hq & C & S) May|m known ts1 i c p ts2 n tr tr' m' p' l H (hq & C & S) Ad|m known ts1 i c r ts2 n tr l H (hq & C & S)].
  - exists first_hpool. split; [apply (clean_first to_ascii hardcoded)|apply hseen_first].
  - destruct hq as [h known0 hts n0 tr0]. pose proof (c_known _ _ C) as Ek. pose proof (c_count _ _ C) as Ec. pose proof (c_trace _ _ C) as Et.
    cbn [hp_known hp_count hp_trace p_known p_count p_trace] in *. subst known0 n0 tr0.
    eexists. split; [apply clean_starts; exact C|]. apply hseen_begins; assumption.
  - destruct hq as [h known0 hts n0 tr0]. pose proof (c_known _ _ C) as Ek. pose proof (c_count _ _ C) as Ec. pose proof (c_trace _ _ C) as Et.
    cbn [hp_known hp_count hp_trace p_known p_count p_trace] in *. subst known0 n0 tr0.
    destruct (clean_works _ _ _ _ _ _ _ _ _ _ _ _ _ _ _ _ _ (proj2 (c85_all to_ascii hardcoded ext _) (ex_intro _ l H)) C Ad) as (hts1 & hp & hts2 & h' & hp' & -> & A & C').
    eexists. split; [exact C'|]. destruct A as [A|(-> & A)].
    + eapply hseen_asks; eassumption.
    + cbn [map]. rewrite !app_nil_r. eapply runs_seen; eassumption.
  - destruct hq as [h known0 hts n0 tr0]. pose proof (c_known _ _ C) as Ek. pose proof (c_count _ _ C) as Ec. pose proof (c_trace _ _ C) as Et.
    cbn [hp_known hp_count hp_trace p_known p_count p_trace] in *. subst known0 n0 tr0.
    destruct (clean_ends _ _ _ _ _ _ _ _ _ _ _ C) as (hts1 & hts2 & -> & C'). eexists. split; [exact C'|]. apply (hseen_ends _ _ _ _ _ _ _ c). exact S.
Qed.
Lemma c106_pointers_same : forall l, (exists q, seen q l) <-> exists hq, hseen hq l.
Proof.
  intros l. split; intros (q & H).
  - destruct (clean_seen q l H) as (hq & _ & S). exists hq. exact S.
  - destruct (inv_seen q l H) as (q' & _ & S). exists q'. exact S.
Qed.

Lemma any_undisturbed : forall q l, wseen any_calls q l -> wseen (undisturbed (fun _ => false)) q l.
Proof.
  intros q l H. assert (U : forall ts, undisturbed (fun _ => false) ts) by (intros ts t1 t2 f p _ _ E; discriminate E).
  induction H as [|w known ts n tr d l c H IH May ts' O|w known ts1 i c p v ts2 n tr d tr' w' v' p' l H IH Adv O|w known ts1 i c r v ts2 n tr d l H IH O].
  - apply wseen_first.
  - apply wseen_begins; auto.
  - eapply wseen_asks; eauto.
  - eapply wseen_ends; eauto.
Qed.
Lemma fresh_nodes : forall q l a i, wseen any_calls q l -> w_next (wp_weak q) <= a -> as_node (latest (w_cell (wp_weak q) (NodeAt a i))) = zero.
Proof.
  intros q l a i H L. destruct (weak_seen _ _ _ (any_undisturbed q l H)) as (hq & gs & l' & _ & Rel & _).
  apply (rf_fresh _ _ _ _ (rr_fine _ _ _ _ _ _ _ Rel)). exact L.
Qed.
Lemma latest_seen : forall hq l, hseen hq l -> exists q, wseen any_calls q l /\ agree (wp_weak q) (hp_heap hq)
  /\ map without_view (wp_threads q) = hp_threads hq /\ wp_known q = hp_known hq /\ wp_count q = hp_count hq /\ wp_trace q = hp_trace hq.
Proof.
  intros hq l H. induction H as [|h known hts n tr l c H (q & S & Ag & E1 & E2 & E3 & E4) May|h known hts1 i c p hts2 n tr tr' h' p' l H (q & S & Ag & E1 & E2 & E3 & E4) Ad
    |h known hts1 i c r hts2 n tr l H (q & S & Ag & E1 & E2 & E3 & E4)].
  - exists first_wpool. split; [apply wseen_first|]. pose proof (r_agree _ _ _ first_related) as A. split; [exact A|]. repeat split.
  - destruct q as [w known0 ts n0 tr0 d]. cbn [wp_weak wp_threads wp_known wp_count wp_trace hp_heap hp_threads hp_known hp_count hp_trace] in *. subst known0 n0 tr0 hts.
    eexists. split; [apply wseen_begins; [exact S|exact May|exact I]|]. cbn [wp_weak wp_threads wp_known wp_count wp_trace hp_heap hp_threads hp_known hp_count hp_trace].
    split; [exact Ag|]. rewrite map_app. repeat split.
  - destruct q as [w known0 ts n0 tr0 d]. cbn [wp_weak wp_threads wp_known wp_count wp_trace hp_heap hp_threads hp_known hp_count hp_trace] in *. subst known0 n0 tr0.
    apply map_eq_app in E1. destruct E1 as (ts1 & ts0 & -> & <- & E0). apply map_eq_cons in E0. destruct E0 as (th & ts2 & -> & Et & <-).
    destruct th as [i' c' p0 v]. cbn [without_view wt_number wt_call wt_rest] in Et. injection Et as -> -> ->.
    assert (X : exists w' v', weak_advance w v p tr' w' v' p' /\ agree w' h').
    { destruct p as [r|R o k|R o k]; cbn [weak_advance heap_advance] in *; [destruct Ad| |].
      - destruct Ad as (-> & x & -> & ->). exists w, v. split; [split; [reflexivity|split; [reflexivity|exists x; auto]]|exact Ag].
      - destruct Ad as (-> & x & St & ->). destruct (step_back _ _ _ _ _ _ St Ag) as (w' & B).
        destruct (B (full w) (fun l => le_n _)) as (v1 & St1).
        destruct (step_agree _ _ _ _ _ _ _ _ Ag St1 (fun l _ => eq_refl) (fun a i => fresh_nodes _ _ a i S)) as (h1 & St2 & Ag').
        rewrite (heap_step_one _ _ _ _ _ _ St2 St) in Ag'. destruct (B v) as (v' & St').
        { assert (Sp : wpool_steps to_ascii hardcoded ext first_wpool (mkWPool w known (ts1 ++ mkWThread i c (HHeap o k) v :: ts2) n tr d)).
          { eapply careful_any. apply (proj2 (c106_all (fun _ => false) _)). exists l. apply any_undisturbed. exact S. }
          apply views_bounded in Sp. destruct Sp as (Bd & _). apply (Bd (mkWThread i c (HHeap o k) v)). apply in_elt. }
        exists w', v'. split; [split; [reflexivity|exists x; auto]|exact Ag']. }
    destruct X as (w' & v' & Ha & Ag').
    eexists. split; [eapply wseen_asks; [exact S|exact Ha|exact I]|]. cbn [wp_weak wp_threads wp_known wp_count wp_trace hp_heap hp_threads hp_known hp_count hp_trace].
    split; [exact Ag'|]. rewrite map_app. repeat split.
  - destruct q as [w known0 ts n0 tr0 d]. cbn [wp_weak wp_threads wp_known wp_count wp_trace hp_heap hp_threads hp_known hp_count hp_trace] in *. subst known0 n0 tr0.
    apply map_eq_app in E1. destruct E1 as (ts1 & ts0 & -> & <- & E0). apply map_eq_cons in E0. destruct E0 as (th & ts2 & -> & Et & <-).
    destruct th as [i' c' p0 v]. cbn [without_view wt_number wt_call wt_rest] in Et. injection Et as -> -> ->.
    eexists. split; [exact (wseen_ends _ _ _ any_calls w known ts1 i c r v ts2 n tr d l S I)|]. cbn [wp_weak wp_threads wp_known wp_count wp_trace hp_heap hp_threads hp_known hp_count hp_trace].
    split; [exact Ag|]. rewrite map_app. repeat split.
Qed.

(** ** Overlapping calls, as seen from outside *)

Definition label (th : wthread) : nat * call := (wt_number th, wt_call th).
Lemma running_snoc : forall l m, running_calls (l ++ [m]) = running_after (running_calls l) m.
Proof. intros l m. unfold running_calls. rewrite fold_left_app. reflexivity. Qed.
Lemma running_asks : forall l i tr, running_calls (l ++ map (Asks i) tr) = running_calls l.
Proof.
  intros l i tr. revert l. induction tr as [|e tr IH]; intros l; cbn [map]; [rewrite app_nil_r; reflexivity|].
  replace (l ++ Asks i e :: map (Asks i) tr) with ((l ++ [Asks i e]) ++ map (Asks i) tr) by (rewrite <- app_assoc; reflexivity).
  rewrite IH, running_snoc. reflexivity.
Qed.
Lemma filter_others : forall i (l : list (nat * call)), ~ In i (map fst l) -> filter (fun x => negb (Nat.eqb (fst x) i)) l = l.
Proof.
  intros i l. induction l as [|x l IH]; intros N; cbn [filter map In] in *; [reflexivity|].
  destruct (Nat.eqb_spec (fst x) i) as [E|D]; [exfalso; apply N; left; exact E|]. cbn [negb]. f_equal. apply IH. tauto.
Qed.
Lemma running_threads : forall ok q l, wseen ok q l -> map label (wp_threads q) = running_calls l
  /\ NoDup (map wt_number (wp_threads q)) /\ forall i, In i (map wt_number (wp_threads q)) -> i < wp_count q.
Proof.
  intros ok q l H. induction H as [|w known ts n tr d l c H (E & N & B) May ts' O|w known ts1 i c p v ts2 n tr d tr' w' v' p' l H (E & N & B) Adv O|w known ts1 i c r v ts2 n tr d l H (E & N & B) O];
    cbn [wp_threads wp_count] in *.
  - split; [reflexivity|]. split; [constructor|intros i []].
  - rewrite running_snoc, <- E. unfold ts'. rewrite !map_app. cbn [map wt_number running_after label wt_call]. split; [reflexivity|]. split.
    + apply (Permutation.Permutation_NoDup (Permutation.Permutation_cons_append _ n)). constructor; [|exact N]. intros X. apply B in X. lia.
    + intros i X. apply in_app_or in X as [X|[<-|[]]]; [apply B in X; lia|lia].
  - rewrite running_asks, <- E. rewrite !map_app in *. cbn [map label wt_number wt_call] in *. auto.
  - rewrite running_snoc, <- E. rewrite !map_app in *. cbn [map label wt_number wt_call running_after] in *.
    apply NoDup_remove in N as (N & Ni). split; [|split; [exact N|]].
    + rewrite filter_app. cbn [filter fst]. rewrite Nat.eqb_refl. cbn [negb].
      assert (G : forall ts, ~ In i (map wt_number ts) -> filter (fun x => negb (Nat.eqb (fst x) i)) (map label ts) = map label ts).
      { intros ts X. apply filter_others. rewrite map_map. exact X. }
      rewrite in_app_iff in Ni. rewrite !G by tauto. reflexivity.
    + intros j X. apply B. apply in_app_or in X. apply in_or_app. cbn [In]. tauto.
Qed.
Lemma calm_before : forall T l m, calm T (l ++ m) -> calm T l.
Proof. intros T l m C l1 l2 i f p j E. apply (C l1 (l2 ++ m) i f p j). rewrite E, app_assoc. reflexivity. Qed.
Lemma calm_undisturbed : forall T ts l, calm T l -> map label ts = running_calls l -> undisturbed T ts.
Proof.
  intros T ts l C E t1 t2 f p I1 I2 Et E1 E2. apply (in_map label) in I1, I2. rewrite E in I1, I2. unfold label in I1, I2. rewrite E1 in I1. rewrite E2 in I2.
  apply (C l [] _ f p (wt_number t2) (eq_sym (app_nil_r l)) Et I1 I2).
Qed.
Lemma undisturbed_now : forall T ts rs, undisturbed T ts -> map label ts = rs ->
  forall i f p j, T i = true -> In (i, CallExtract f p) rs -> ~ In (j, CallUpdate f) rs.
Proof.
  intros T ts rs U <- i f p j Et I1 I2. apply in_map_iff in I1 as (t1 & L1 & I1). apply in_map_iff in I2 as (t2 & L2 & I2).
  injection L1 as <- E1. injection L2 as _ E2. apply (U t1 t2 f p I1 I2 Et E1 E2).
Qed.
Lemma calm_more : forall T l m, calm T l -> (forall i f p j, T i = true -> In (i, CallExtract f p) (running_calls (l ++ [m])) -> ~ In (j, CallUpdate f) (running_calls (l ++ [m]))) ->
  calm T (l ++ [m]).
Proof.
  intros T l m C N l1 l2 i f p j E. destruct l2 as [|x l2 _] using rev_ind; [rewrite app_nil_r in E; subst l1; apply N|].
  rewrite app_assoc in E. apply app_inj_tail in E as (-> & _). apply (C l1 l2). reflexivity.
Qed.
Lemma c106_overlaps : forall T q l, wseen (undisturbed T) q l <-> wseen any_calls q l /\ calm T l.
Proof.
  intros T q l. split.
  - intros H. assert (R : forall q l, wseen any_calls q l -> map label (wp_threads q) = running_calls l) by (intros q0 l0 X; apply (running_threads any_calls q0 l0 X)).
    induction H as [|w known ts n tr d l c H (S & C) May ts' O|w known ts1 i c p v ts2 n tr d tr' w' v' p' l H (S & C) Adv O|w known ts1 i c r v ts2 n tr d l H (S & C) O].
    + split; [apply wseen_first|]. intros l1 l2 i f p j E _ I1. symmetry in E. apply app_eq_nil in E as (-> & _). destruct I1.
    + assert (S' : wseen any_calls (mkWPool w known ts' (Datatypes.S n) tr d) (l ++ [Begins n c])) by (apply wseen_begins; [exact S|exact May|exact I]).
      split; [exact S'|]. apply calm_more; [exact C|]. exact (undisturbed_now T ts' _ O (R _ _ S')).
    + assert (S' : wseen any_calls (mkWPool w' known (ts1 ++ mkWThread i c p' v' :: ts2) n (tr ++ tr') d) (l ++ map (Asks i) tr')) by (eapply wseen_asks; [exact S|exact Adv|exact I]).
      split; [exact S'|]. assert (A : exists m, map (Asks i) tr' = [] \/ map (Asks i) tr' = [m]).
      { destruct p as [r|R0 o k|R0 o k]; cbn [weak_advance] in Adv; [destruct Adv| |].
        - destruct Adv as (_ & _ & x & -> & _). eexists. right. reflexivity.
        - destruct Adv as (-> & _). exists (Ends 0 Panic). left. reflexivity. }
      destruct A as (m & [A|A]); rewrite A in *; [rewrite app_nil_r; exact C|]. apply calm_more; [exact C|]. exact (undisturbed_now T _ _ O (R _ _ S')).
    + assert (S' : wseen any_calls (mkWPool w (returned r ++ known) (ts1 ++ ts2) n tr (join d v)) (l ++ [Ends i r])) by (apply (wseen_ends _ _ _ _ _ _ _ _ c); [exact S|exact I]).
      split; [exact S'|]. apply calm_more; [exact C|]. exact (undisturbed_now T _ _ O (R _ _ S')).
  - intros (H & C). assert (R : forall q l, wseen any_calls q l -> calm T l -> undisturbed T (wp_threads q)).
    { intros q0 l0 X C0. eapply calm_undisturbed; [exact C0|]. apply (running_threads any_calls q0 l0 X). }
    induction H as [|w known ts n tr d l c H IH May ts' O|w known ts1 i c p v ts2 n tr d tr' w' v' p' l H IH Adv O|w known ts1 i c r v ts2 n tr d l H IH O].
    + apply wseen_first.
    + apply wseen_begins; [apply IH; eapply calm_before; exact C|exact May|].
      apply (R (mkWPool w known ts' (S n) tr d) _ (wseen_begins _ _ _ any_calls w known ts n tr d l c H May I) C).
    + eapply wseen_asks; [apply IH; eapply calm_before; exact C|exact Adv|].
      apply (R (mkWPool w' known (ts1 ++ mkWThread i c p' v' :: ts2) n (tr ++ tr') d) _ (wseen_asks _ _ _ any_calls _ _ _ _ _ _ _ _ _ _ _ _ _ _ _ _ H Adv I) C).
    + apply (wseen_ends _ _ _ _ _ _ _ _ c); [apply IH; eapply calm_before; exact C|].
      apply (R (mkWPool w (returned r ++ known) (ts1 ++ ts2) n tr (join d v)) _ (wseen_ends _ _ _ any_calls w known ts1 i c r v ts2 n tr d l H I) C).
Qed.
Lemma same_all : forall l l' l0, Forall2 (same_moment (fun _ => true) l0) l l' -> l = l'.
Proof.
  intros l l' l0 H. induction H as [|a b l l' [->|(i & f & p & r1 & r2 & _ & _ & E & _)] H IH]; [reflexivity|f_equal; exact IH|discriminate E].
Qed.
Lemma c106_weak_same : forall l, calm (fun _ => true) l -> (exists q, seen q l) <-> exists q, wseen any_calls q l.
Proof.
  intros l C. rewrite c106_pointers_same. split; intros (q & H).
  - destruct (latest_seen q l H) as (q' & S & _). exists q'. exact S.
  - destruct (weak_seen (fun _ => true) q l) as (hq & gs & l' & Hs & _ & Sm); [apply c106_overlaps; auto|].
    apply same_all in Sm. subst l'. exists hq. exact Hs.
Qed.
Lemma c106_seen_weak : forall q l, seen q l -> exists q', wseen any_calls q' l.
Proof.
  intros q l H. destruct (proj1 (c106_pointers_same l) (ex_intro _ q H)) as (hq & S). destruct (latest_seen hq l S) as (q' & S' & _). exists q'. exact S'.
Qed.
End Seen.
