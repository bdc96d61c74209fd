(** BaseFacts.v - lemmas about the Go primitives of Base.v. *)

From Verif Require Import Base.
From Coq Require Import ZifyBool ZifyNat ZifyN.

Lemma bytes_eqb_eq : forall s t, bytes_eqb s t = true <-> s = t.
Proof.
  induction s as [|a s IH]; destruct t as [|b t]; cbn [bytes_eqb]; split; intros H;
    try reflexivity; try discriminate.
  - apply andb_true_iff in H as [H1 H2]. apply N.eqb_eq in H1. apply IH in H2. congruence.
  - injection H as -> ->. rewrite N.eqb_refl. apply IH. reflexivity.
Qed.

Lemma bytes_eqb_refl : forall s, bytes_eqb s s = true.
Proof. intros s. apply bytes_eqb_eq. reflexivity. Qed.

Lemma bytes_eqb_neq : forall s t, bytes_eqb s t = false <-> s <> t.
Proof.
  intros s t. destruct (bytes_eqb s t) eqn:E.
  - apply bytes_eqb_eq in E. split; [discriminate | contradiction].
  - split; [|reflexivity]. intros _ H. apply bytes_eqb_eq in H. congruence.
Qed.

Lemma memN_In : forall x l, memN x l = true <-> In x l.
Proof.
  intros x l. unfold memN. rewrite existsb_exists. split.
  - intros (y & Hy & E). apply N.eqb_eq in E. subst. exact Hy.
  - intros H. exists x. split; [exact H | apply N.eqb_refl].
Qed.

Lemma len_nonneg : forall A (s : list A), (0 <= len s)%Z.
Proof. intros. unfold len. lia. Qed.

Lemma len_app : forall A (s t : list A), len (s ++ t) = (len s + len t)%Z.
Proof. intros. unfold len. rewrite app_length. lia. Qed.

Lemma len_nil : forall A, len (@nil A) = 0%Z.
Proof. reflexivity. Qed.

Lemma len_cons : forall A (x : A) s, len (x :: s) = (1 + len s)%Z.
Proof. intros. unfold len. cbn [length]. lia. Qed.

Lemma len_zero : forall A (s : list A), len s = 0%Z <-> s = [].
Proof. intros A s. unfold len. destruct s; cbn [length]; split; intros H; try reflexivity; try discriminate; lia. Qed.

Lemma len_eqb_zero : forall A (s : list A), (len s =? 0)%Z = match s with [] => true | _ => false end.
Proof. intros A s. unfold len. destruct s; cbn [length]; lia. Qed.

#[export] Hint Rewrite len_app len_nil len_cons : len.

Lemma slice_mid : forall A (p m q : list A) a b,
  a = len p -> b = (len p + len m)%Z -> slice (p ++ m ++ q) a b = Ret m.
Proof.
  intros A p m q a b -> ->. unfold slice. autorewrite with len.
  replace ((0 <=? len p) && (len p <=? len p + len m)
           && (len p + len m <=? len p + (len m + len q)))%Z with true
    by (pose proof (len_nonneg _ p); pose proof (len_nonneg _ m); pose proof (len_nonneg _ q); lia).
  f_equal. replace (Z.to_nat (len p)) with (length p + 0) by (unfold len; lia).
  rewrite skipn_app, Nat.add_0_r, skipn_all, Nat.sub_diag. cbn [skipn app].
  replace (Z.to_nat (len p + len m - len p)) with (length m + 0) by (unfold len; lia).
  rewrite firstn_app_2. cbn [firstn]. apply app_nil_r.
Qed.

Lemma slice_prefix : forall A (p q : list A) b, b = len p -> slice (p ++ q) 0 b = Ret p.
Proof. intros A p q b ->. apply (slice_mid A [] p q); autorewrite with len; lia. Qed.

Lemma slice_suffix : forall A (p q : list A) a b,
  a = len p -> b = len (p ++ q) -> slice (p ++ q) a b = Ret q.
Proof.
  intros A p q a b -> ->. rewrite <- (app_nil_r q) at 1. apply slice_mid; autorewrite with len; lia.
Qed.

Lemma slice_all : forall A (s : list A) b, b = len s -> slice s 0 b = Ret s.
Proof. intros A s b ->. rewrite <- (app_nil_r s) at 1. apply slice_prefix. reflexivity. Qed.

Lemma slice_inv : forall A (s : list A) a b r, slice s a b = Ret r ->
  exists p q, s = p ++ r ++ q /\ len p = a /\ b = (a + len r)%Z.
Proof.
  intros A s a b r. unfold slice.
  destruct (((0 <=? a) && (a <=? b) && (b <=? len s))%Z) eqn:E; [|discriminate].
  intros H. injection H as <-.
  exists (firstn (Z.to_nat a) s), (skipn (Z.to_nat (b - a)) (skipn (Z.to_nat a) s)).
  rewrite firstn_skipn, firstn_skipn.
  assert (Hs : (b <= len s)%Z) by lia. unfold len in *.
  rewrite !firstn_length, skipn_length. split; [reflexivity|]. split; lia.
Qed.

Lemma slice_ret : forall A (s : list A) a b, (0 <= a <= b)%Z -> (b <= len s)%Z ->
  exists p m q, s = p ++ m ++ q /\ len p = a /\ b = (a + len m)%Z /\ slice s a b = Ret m.
Proof.
  intros A s a b Ha Hb.
  assert (E : slice s a b = Ret (firstn (Z.to_nat (b - a)) (skipn (Z.to_nat a) s))).
  { unfold slice. replace ((0 <=? a) && (a <=? b) && (b <=? len s))%Z with true by lia. reflexivity. }
  destruct (slice_inv _ _ _ _ _ E) as (p & q & H1 & H2 & H3).
  exists p, (firstn (Z.to_nat (b - a)) (skipn (Z.to_nat a) s)), q. auto.
Qed.

Lemma index_mid : forall A (p : list A) x q i, i = len p -> index (p ++ x :: q) i = Ret x.
Proof.
  intros A p x q i ->. unfold index. autorewrite with len.
  replace ((0 <=? len p) && (len p <? len p + (1 + len q)))%Z with true
    by (pose proof (len_nonneg _ p); pose proof (len_nonneg _ q); lia).
  replace (Z.to_nat (len p)) with (length p) by (unfold len; lia).
  rewrite nth_error_app2, Nat.sub_diag by lia. reflexivity.
Qed.

Lemma index_head : forall A (x : A) q, index (x :: q) 0 = Ret x.
Proof. intros. apply (index_mid A [] x q). reflexivity. Qed.

Lemma app_eq_len : forall A (a b c d : list A), a ++ b = c ++ d -> len a = len c -> a = c /\ b = d.
Proof.
  intros A a. induction a as [|x a IH]; intros b c d H L; destruct c as [|y c];
    autorewrite with len in L; try (pose proof (len_nonneg _ a)); try (pose proof (len_nonneg _ c));
    try lia; cbn [app] in H.
  - auto.
  - injection H as -> H. destruct (IH _ _ _ H) as [-> ->]; [lia|auto].
Qed.

Lemma app_split : forall A (a b c d : list A), a ++ b = c ++ d ->
  (exists m, c = a ++ m /\ b = m ++ d) \/ (exists m, m <> [] /\ a = c ++ m /\ d = m ++ b).
Proof.
  intros A a. induction a as [|x a IH]; intros b c d H; cbn [app] in H.
  - left. exists c. auto.
  - destruct c as [|y c]; cbn [app] in H.
    + right. exists (x :: a). split; [discriminate|]. split; [reflexivity|]. symmetry. exact H.
    + injection H as -> H. destruct (IH _ _ _ H) as [(m & -> & ->)|(m & Hm & -> & ->)].
      * left. exists m. auto.
      * right. exists m. auto.
Qed.

Lemma app_inv_same : forall A (a b : list A), a = a ++ b -> b = [].
Proof. intros A a b H. rewrite <- (app_nil_r a) in H at 1. apply app_inv_head in H. auto. Qed.

(** ** Longest prefixes *)

Fixpoint span (p : N -> bool) (s : bytes) : bytes * bytes :=
  match s with
  | [] => ([], [])
  | b :: t => if p b then let '(d, q) := span p t in (b :: d, q) else ([], s)
  end.

Definition no_head (p : N -> bool) (q : bytes) : Prop :=
  match q with [] => True | b :: _ => p b = false end.

Lemma span_spec : forall p s d q, span p s = (d, q) <->
  s = d ++ q /\ Forall (fun b => p b = true) d /\ no_head p q.
Proof.
  intros p. induction s as [|b s IH]; intros d q; cbn [span].
  - split.
    + intros H. injection H as <- <-. repeat split; constructor.
    + intros (E & _ & _). destruct d, q; try discriminate. reflexivity.
  - destruct (p b) eqn:Eb.
    + destruct (span p s) as [d' q'] eqn:Es. split.
      * intros H. injection H as <- <-. destruct (proj1 (IH d' q') eq_refl) as (-> & A & B).
        repeat split; auto.
      * intros (E & A & B). destruct d as [|c d].
        -- cbn [app] in E. subst q. cbn [no_head] in B. congruence.
        -- cbn [app] in E. injection E as <- ->. inversion A; subst.
           assert (X : (d', q') = (d, q)) by (apply IH; auto). injection X as -> ->. reflexivity.
    + split.
      * intros H. injection H as <- <-. repeat split; auto.
      * intros (E & A & B). destruct d as [|c d]; [cbn [app] in E; subst q; reflexivity|].
        cbn [app] in E. injection E as <- ->. inversion A; subst. congruence.
Qed.
