(** LibProofs.v - the library refines the abstract machine of LibSpec.v. *)

From Verif Require Import Base BaseFacts Chars Str StrFacts Trie Extract Psl ListSpec ListFacts World Update Calls UpdateSpec
  WorldFacts NewFacts UpdateProofs CallFacts ErrSpec CompleteProofs NewSpec NewProofs LibSpec.
From Coq Require Import ZifyBool ZifyNat ZifyN.

(** The memory represents the views. *)
Definition views_ok (to_ascii : bytes -> option bytes) (m : memory) (views : nat -> option view) : Prop :=
  memory_ok m /\ forall f v, views f = Some v -> (f < m_next_extractor m)%nat
    /\ x_path (m_extractor m f) = v_path v /\ x_private (m_extractor m f) = v_private v
    /\ serves to_ascii m f (v_private v) (v_text v).

Lemma with_same : forall views f v, with_view views f v f = Some v.
Proof. intros. unfold with_view. rewrite Nat.eqb_refl. reflexivity. Qed.
Lemma with_other : forall views f v g, g <> f -> with_view views f v g = views g.
Proof. intros views f v g H. unfold with_view. apply Nat.eqb_neq in H. rewrite H. reflexivity. Qed.

Lemma serves_kept : forall to_ascii m m' f private text, trie_in m' f = trie_in m f -> serves to_ascii m f private text ->
  serves to_ascii m' f private text.
Proof. intros to_ascii m m' f private text E (rules & U & B). exists rules. rewrite E. auto. Qed.

Section Lib.
Variable to_ascii : bytes -> option bytes.
Variable hardcoded : bytes.
Variable ext : idna.
Local Notation history := (history to_ascii hardcoded ext).
Local Notation machine := (machine to_ascii hardcoded ext).
Local Notation machine_history := (machine_history to_ascii hardcoded ext).
Local Notation program := (program to_ascii hardcoded ext).

Lemma call_refines : forall known c net d m tr d' m' a views, views_ok to_ascii m views ->
  (forall f, In f known -> views f <> None) -> may_call known c -> disk_ok d -> unpadded (default_path d) ->
  runs disk_step (program c) d m tr d' m' (Ret a) -> smooth net tr ->
  exists views', machine d views c a d' views' /\ views_ok to_ascii m' views'
    /\ forall f, In f (returned (Ret a) ++ known) -> views' f <> None.
Proof.
  intros known c net d m tr d' m' a views (Mok & V) Kn Mc Ok Up H Sm. destruct c as [n|f|f p]; cbn [Calls.program may_call] in *.
  - apply runs_bind in H as (tr1 & d1 & m1 & o & H & K).
    pose proof (memory_ok_new _ _ _ _ _ _ _ _ _ _ _ Mok H) as Mok1.
    destruct (new_outcome _ _ _ _ _ _ _ _ _ _ _ H) as (f0 & -> & (Kt & Hf & Ho & _) & Xp & _).
    destruct K as (tr2 & -> & K). apply smooth_app in Sm as (Sm & _). destruct K as (-> & -> & -> & X). injection X as ->.
    destruct (c68_new _ _ _ _ _ _ _ _ _ _ Ok Up H Sm) as (f & x & y & urls & X & Us & As & Nw & Fa & Hl). injection X as <-.
    assert (F0 : views f0 = None).
    { destruct (views f0) as [v|] eqn:E; [|reflexivity]. destruct (V _ _ E) as (L & _). lia. }
    exists (with_view views f0 (view_of hardcoded (lp_private n) x)). split; [econstructor; eauto|]. split.
    + split; [exact Mok1|]. intros g v Hg. destruct (Nat.eq_dec g f0) as [->|D].
      * rewrite with_same in Hg. injection Hg as <-. split; [lia|].
        destruct x as [|path text]; cbn [view_of v_path v_private v_text]; destruct Hl as (Sv & Px); auto.
      * rewrite with_other in Hg by exact D. destruct (V _ _ Hg) as (L & P & Q & Sv). split; [lia|]. rewrite Ho by exact L.
        split; [exact P|]. split; [exact Q|]. eapply serves_kept; [|exact Sv]. apply keeps_trie_in; auto.
    + intros g [<-|Hg]; [rewrite with_same; discriminate|]. destruct (Nat.eq_dec g f0) as [->|D]; [rewrite with_same; discriminate|].
      rewrite with_other by exact D. auto.
  - apply runs_bind in H as (tr1 & d1 & m1 & o & H & K).
    destruct (update_returns _ _ _ _ _ _ _ _ _ _ _ H) as (e & ->). destruct K as (tr2 & -> & K).
    apply smooth_app in Sm as (Sm & _). destruct K as (-> & -> & -> & X). injection X as ->.
    pose proof (memory_ok_update _ _ _ _ _ _ _ _ _ _ _ Mok H) as Mok1.
    destruct (update_effect _ _ _ _ _ _ _ _ _ _ _ H) as (Kt & Ne & Ho & Eff).
    destruct (views f) as [v|] eqn:Vf; [|destruct (Kn _ Mc Vf)]. destruct (V _ _ Vf) as (Lf & Pf & Qf & Sf).
    cbn [returned app].
    assert (Keep : m_extractor m1 f = m_extractor m f -> views_ok to_ascii m1 views).
    { intros Xf. split; [exact Mok1|]. intros g v' Hg. destruct (V _ _ Hg) as (L & P & Q & Sv). rewrite Ne. split; [exact L|].
      assert (Xg : m_extractor m1 g = m_extractor m g) by (destruct (Nat.eq_dec g f) as [->|D]; auto).
      rewrite Xg. split; [exact P|]. split; [exact Q|]. eapply serves_kept; [|exact Sv]. apply keeps_trie_in; auto. }
    destruct (c68_update _ _ _ _ _ _ _ _ _ _ H Sm) as [(N & X & -> & -> & _)|(P & y & urls & Rf & As & Fa & _ & _ & _ & _ & Y)].
    + injection X as ->. exists views. split; [econstructor; eauto; congruence|]. split; [split; auto|]. exact Kn.
    + rewrite Pf in P. rewrite Qf in Y. destruct y as [| |text].
      * destruct Y as (X & ->). injection X as ->. exists views. split; [|split; [apply Keep; reflexivity|exact Kn]].
        apply (machine_update _ _ _ d views net d1 f v Closed urls (Some ErrOpenCache)); auto. reflexivity.
      * destruct Y as (X & ->). injection X as ->. exists views. split; [|split; [apply Keep; reflexivity|exact Kn]].
        apply (machine_update _ _ _ d views net d1 f v NotOffered urls (Some ErrNoSource)); auto. reflexivity.
      * destruct Y as [(R & X & Sv & Px)|(R & X & Xe)]; injection X as ->.
        -- exists (with_view views f (mkView (v_path v) (v_private v) text)). split; [|split].
           ++ apply (machine_update _ _ _ d views net d1 f v (NewText text) urls None); auto. left. auto.
           ++ split; [exact Mok1|]. intros g v' Hg. destruct (Nat.eq_dec g f) as [->|D].
              ** rewrite with_same in Hg. injection Hg as <-. cbn [v_path v_private v_text]. rewrite Ne. split; [exact Lf|].
                 split; [congruence|]. split; [|exact Sv]. destruct Eff as [(er & X & _)|(_ & _ & Eq & _)]; [discriminate|]. congruence.
              ** rewrite with_other in Hg by exact D. destruct (V _ _ Hg) as (L & P' & Q & Sv'). rewrite Ne. split; [exact L|].
                 rewrite Ho by exact D. split; [exact P'|]. split; [exact Q|]. eapply serves_kept; [|exact Sv'].
                 apply keeps_trie_in; auto.
           ++ intros g Hg. destruct (Nat.eq_dec g f) as [->|D]; [rewrite with_same; discriminate|]. rewrite with_other by exact D. auto.
        -- exists views. split; [|split; [apply Keep; rewrite Xe; reflexivity|exact Kn]].
           apply (machine_update _ _ _ d views net d1 f v (NewText text) urls (Some ErrReadList)); auto. right. auto.
  - apply runs_bind in H as (tr1 & d1 & m1 & o & H & K). apply c43_read_only in H as (-> & -> & -> & ->).
    destruct (extract ext (trie_in m f) p) as [[r e]| |] eqn:X; [|destruct K as (_ & _ & _ & K); discriminate..].
    destruct K as (tr2 & -> & K). destruct K as (-> & -> & -> & Y). injection Y as ->.
    destruct (views f) as [v|] eqn:Vf; [|destruct (Kn _ Mc Vf)]. destruct (V _ _ Vf) as (Lf & Pf & Qf & rules & Us & B).
    exists views. split; [|split; [split; auto|exact Kn]]. econstructor; eauto. eapply c67; eauto.
Qed.

Lemma c69_views : forall m0 l d m known, memory_ok m0 -> history m0 l d m known ->
  exists views, machine_history l d views /\ views_ok to_ascii m views /\ forall f, In f known -> views f <> None.
Proof.
  intros m0 l d m known Mok H. induction H as [d|l d m known d' H IH|l d m known c net tr d' m' a H IH Mc Ok Up R Sm].
  - exists no_views. split; [constructor|]. split; [split; [exact Mok|discriminate]|intros f []].
  - destruct IH as (views & A & B). exists views. split; [exact (mh_change _ _ _ _ _ _ _ A)|exact B].
  - destruct IH as (views & A & B & C). destruct (call_refines _ _ _ _ _ _ _ _ _ _ B C Mc Ok Up R Sm) as (views' & M & B' & C').
    exists views'. split; [exact (mh_call _ _ _ _ _ _ _ _ _ _ A M)|]. auto.
Qed.

Lemma c69_answers : forall m0 l d m known c tr d' m' o, memory_ok m0 -> history m0 l d m known -> may_call known c ->
  runs disk_step (program c) d m tr d' m' o ->
  exists a, o = Ret a /\ match c with
                         | CallNew _ => exists f, a = FromNew (f, None) /\ ~ In f known
                         | CallUpdate _ => exists e, a = FromUpdate e
                         | CallExtract _ _ => exists r e, a = FromExtract (r, e)
                         end.
Proof.
  intros m0 l d m known c tr d' m' o Mok H Mc R. destruct (c69_views _ _ _ _ _ Mok H) as (views & _ & (Mok1 & V) & Kn).
  destruct c as [n|f|f p]; cbn [Calls.program may_call] in *.
  - apply runs_bind in R as (tr1 & d1 & m1 & o1 & R & K).
    destruct (new_outcome _ _ _ _ _ _ _ _ _ _ _ R) as (f0 & -> & (Kt & Hf & Ho & _) & _).
    destruct K as (tr2 & -> & _ & _ & _ & ->). eexists. split; [reflexivity|]. exists f0. split; [reflexivity|].
    intros Hk. specialize (Kn _ Hk). destruct (views f0) as [v|] eqn:E; [|contradiction]. destruct (V _ _ E). lia.
  - apply runs_bind in R as (tr1 & d1 & m1 & o1 & R & K). destruct (update_returns _ _ _ _ _ _ _ _ _ _ _ R) as (e & ->).
    destruct K as (tr2 & -> & _ & _ & _ & ->). eauto.
  - apply runs_bind in R as (tr1 & d1 & m1 & o1 & R & K). apply c43_read_only in R as (-> & -> & -> & ->).
    specialize (Kn _ Mc). destruct (views f) as [v|] eqn:E; [|contradiction]. destruct (V _ _ E) as (_ & _ & _ & rules & Us & B).
    destruct (c67_consistent ext rules p) as (r & e & X & _). apply (c67 _ _ _ _ _ _ B) in X. rewrite X in K.
    destruct K as (tr2 & -> & _ & _ & _ & ->). eauto.
Qed.
End Lib.
