(** FinishProofs.v - calls running at the same time end, with an answer. *)

From Verif Require Import Base BaseFacts Chars Str Trie Extract RuleSpec TrieFacts Psl ListSpec World Update UpdateSpec Calls CallFacts
  CallProofs FinishSpec.
From Coq Require Import ZifyBool ZifyNat ZifyN.

(** ** All outcomes of a program, for all answers *)

Fixpoint leaves {A : Type} (Q : outcome A -> Prop) (p : prog A) : Prop :=
  match p with
  | Done o => Q o
  | Sys _ k => forall x, leaves Q (k x)
  | Mem _ k => forall x, leaves Q (k x)
  end.

Lemma leaves_bind : forall A B (Q1 : A -> Prop) (Q : outcome B -> Prop) (p : prog A) k,
  leaves (fun o => exists a, o = Ret a /\ Q1 a) p -> (forall a, Q1 a -> leaves Q (k a)) -> leaves Q (pbind p k).
Proof.
  intros A B Q1 Q. induction p as [o|R o c IH|R o c IH]; intros k H K.
  - destruct H as (a & -> & H). cbn [pbind]. apply K. exact H.
  - intros x. apply IH; [apply H|exact K].
  - intros x. apply IH; [apply H|exact K].
Qed.

Definition any {A : Type} : A -> Prop := fun _ => True.
Ltac leaf := cbn [ret leaves]; eexists; (split; [reflexivity|]).

Section Leaves.
Variable to_ascii : bytes -> option bytes.
Variable hardcoded : bytes.

Lemma insert_leaves : forall l a, leaves (fun o => exists x, o = Ret x /\ @any unit x) (insert_suffixes a l).
Proof.
  induction l as [|s l IH]; intros a; cbn [insert_suffixes]; [leaf; exact I|].
  rewrite reverse_spec. cbn [pbind mem_do ret leaves]. intros x. apply IH.
Qed.

Lemma construct_leaves : forall private path,
  leaves (fun o => exists x, o = Ret x /\ (path = [] -> snd x = None)) (trie_construct to_ascii hardcoded private path).
Proof.
  intros private path. unfold trie_construct. cbn [pbind mem_do ret leaves]. intros a.
  eapply (leaves_bind _ _ (fun x => path = [] -> snd x = None)).
  - destruct (bytes_eqb path []) eqn:E; cbn [negb].
    + unfold get_hardcoded_public_suffix_list. leaf. reflexivity.
    + unfold get_public_suffix_list. cbn [pbind sys_do ret leaves]. intros [c|]; leaf; intros ->; rewrite bytes_eqb_refl in E; discriminate.
  - intros [l [e|]] X; [leaf; cbn [snd] in *; intros Y; discriminate (X Y)|].
    eapply leaves_bind; [apply insert_leaves|]. intros _ _. cbn [pbind mem_do ret leaves]. intros _. leaf. reflexivity.
Qed.

Lemma hardcoded_leaves : forall n, leaves (fun o => exists x, o = Ret x /\ snd x = None) (new_hardcoded_psl to_ascii hardcoded n).
Proof.
  intros n. unfold new_hardcoded_psl. eapply leaves_bind; [apply construct_leaves|]. intros [a e] X. cbn [snd] in X. rewrite (X eq_refl).
  cbn [pbind mem_do ret leaves]. intros f. leaf. reflexivity.
Qed.

Lemma download_leaves : forall url, leaves (fun o => exists x, o = Ret x /\ @any (bytes * option io_err) x) (download_file url).
Proof.
  intros url. unfold download_file. cbn [pbind sys_do ret leaves]. intros [|status body complete]; [leaf; exact I|].
  destruct (status =? 200)%Z; leaf; exact I.
Qed.
Lemma update_file_leaves : forall sources fd, leaves (fun o => exists x, o = Ret x /\ @any (option io_err) x) (update_file fd sources).
Proof.
  induction sources as [|s l IH]; intros fd; cbn [update_file]; [leaf; exact I|].
  eapply leaves_bind; [apply download_leaves|]. intros [body [e|]] _; [apply IH|].
  destruct (negb (valid_psl_delimiters body)); [apply IH|]. cbn [pbind sys_do ret leaves]. intros [|]; cbn [negb]; [|apply IH].
  cbn [pbind sys_do ret leaves]. intros [|]; cbn [negb]; [leaf; exact I|apply IH].
Qed.
Lemma check_leaves : forall path, leaves (fun o => exists x, o = Ret x /\ @any (bool * Z) x) (check_cache_file path).
Proof.
  intros path. unfold check_cache_file. cbn [pbind sys_do ret leaves]. intros abs stat.
  eapply (leaves_bind _ _ any); [destruct stat as [[d t]|]; cbn [pbind sys_do ret leaves]; [intros now|]; leaf; exact I|].
  intros age _. cbn [pbind sys_do ret leaves]. intros c. leaf. exact I.
Qed.
Lemma update_leaves : forall f, leaves (fun o => exists x, o = Ret x /\ @any (option io_err) x) (update to_ascii hardcoded f).
Proof.
  intros f. unfold update. cbn [pbind sys_do mem_do ret leaves]. intros temp x. destruct (negb _); [leaf; exact I|].
  cbn [pbind sys_do mem_do ret leaves]. intros [fd|]; [|leaf; exact I].
  eapply leaves_bind; [apply update_file_leaves|]. intros [e|] _; [leaf; exact I|].
  cbn [pbind sys_do mem_do ret leaves]. intros y. eapply leaves_bind; [apply construct_leaves|]. intros [a [e|]] _; [leaf; exact I|].
  cbn [pbind sys_do mem_do ret leaves]. intros _ _. leaf. exact I.
Qed.
Lemma from_cache_leaves : forall n f path, leaves (fun o => exists x, o = Ret x /\ snd x = None) (new_from_cache to_ascii hardcoded n f path).
Proof.
  intros n f path. unfold new_from_cache. eapply leaves_bind; [apply construct_leaves|].
  intros [a [e|]] _; [apply hardcoded_leaves|]. cbn [pbind sys_do mem_do ret leaves]. intros _. leaf. reflexivity.
Qed.
Lemma new_leaves : forall n, leaves (fun o => exists x, o = Ret x /\ snd x = None) (new to_ascii hardcoded n).
Proof.
  intros n. unfold new. cbn [pbind sys_do mem_do ret leaves]. intros a f.
  eapply leaves_bind; [apply check_leaves|]. intros [[|] age] _; cbn [negb]; [apply from_cache_leaves|].
  cbn [pbind sys_do mem_do ret leaves]. intros temp [|]; cbn [negb]; [|apply hardcoded_leaves].
  cbn [pbind sys_do mem_do ret leaves]. intros _.
  eapply leaves_bind; [apply check_leaves|]. intros [valid age'] _. destruct (negb valid || _); [|apply from_cache_leaves].
  eapply leaves_bind; [apply update_leaves|]. intros [e|] _; [apply hardcoded_leaves|leaf; reflexivity].
Qed.
End Leaves.

Section Ends.
Variable to_ascii : bytes -> option bytes.
Variable hardcoded : bytes.
Variable ext : idna.
Local Notation program := (program to_ascii hardcoded ext).
Local Notation pool_step := (pool_step to_ascii hardcoded ext).
Local Notation pool_steps := (pool_steps to_ascii hardcoded ext).

Definition good (c : call) (o : outcome answer) : Prop :=
  match c with CallExtract _ _ => True | _ => exists a, o = Ret a /\ answer_for c a end.

Lemma program_leaves : forall c, leaves (good c) (program c).
Proof.
  intros [n|f|f p]; unfold Calls.program.
  - eapply leaves_bind; [apply new_leaves|]. intros [f e] X. cbn [snd] in X. subst e. leaf. exists f. reflexivity.
  - eapply leaves_bind; [apply update_leaves|]. intros e _. leaf. exists e. reflexivity.
  - generalize (r <~ extract_prog ext f p;; ret (FromExtract r)). induction p0; cbn [leaves good]; auto.
Qed.

Lemma leaves_advance : forall (Q : outcome answer -> Prop) m p tr m' p', leaves Q p -> advance m p tr m' p' -> leaves Q p'.
Proof.
  intros Q m [o|R o k|R o k] tr m' p' L A; cbn [advance leaves] in *; [contradiction| |].
  - destruct A as (_ & x & _ & ->). apply L.
  - destruct A as (_ & _ & ->). apply L.
Qed.

Lemma steps_leaves : forall q, pool_steps first_pool q -> forall th, In th (p_threads q) -> leaves (good (t_call th)) (t_rest th).
Proof.
  intros q H. remember first_pool as q0 eqn:E. induction H as [q|q1 q2 q3 H IH S]; [subst q; intros th []|].
  specialize (IH E). destruct S as [m known ts n tr c M|m known ts1 i c p ts2 n tr tr' m' p' Ad|m known ts1 i c r ts2 n tr];
    cbn [p_threads] in *; intros th Hin.
  - apply in_app_or in Hin as [Hin|[<-|[]]]; [apply IH; exact Hin|apply program_leaves].
  - apply in_app_or in Hin as [Hin|[<-|Hin]]; [apply IH; apply in_or_app; auto| |apply IH; apply in_or_app; right; right; exact Hin].
    cbn [t_call t_rest]. eapply leaves_advance; [|exact Ad]. apply (IH (mkThread i c p)). apply in_or_app. right. left. reflexivity.
  - apply IH. apply in_app_or in Hin as [Hin|Hin]; apply in_or_app; [auto|right; right; exact Hin].
Qed.

(** The start of a running call. *)
Lemma steps_start : forall q n c p, pool_steps first_pool q -> In (mkThread n c p) (p_threads q) ->
  exists m known ts tr, pool_steps first_pool (mkPool m known ts n tr) /\ may_call known c
    /\ pool_steps (mkPool m known (ts ++ [mkThread n c (program c)]) (S n) tr) q.
Proof.
  intros q n c p H. revert p. remember first_pool as q0 eqn:E. induction H as [q|q1 q2 q3 H IH S]; [subst q; intros p []|].
  specialize (IH E). intros p Hin.
  assert (K : forall p2, In (mkThread n c p2) (p_threads q2) -> exists m known ts tr, pool_steps q1 (mkPool m known ts n tr) /\ may_call known c
    /\ pool_steps (mkPool m known (ts ++ [mkThread n c (program c)]) (Datatypes.S n) tr) q3).
  { intros p2 X. destruct (IH p2 X) as (m & known & ts & tr & A & B & C). exists m, known, ts, tr. split; [exact A|]. split; [exact B|].
    eapply steps_more; [exact C|exact S]. }
  destruct S as [m known ts k tr c' M|m known ts1 i c' p1 ts2 k tr tr' m' p' Ad|m known ts1 i c' r ts2 k tr]; cbn [p_threads] in *.
  - apply in_app_or in Hin as [Hin|[X|[]]]; [apply (K p Hin)|]. injection X as -> -> _.
    exists m, known, ts, tr. split; [exact H|]. split; [exact M|]. apply steps_none.
  - apply in_app_or in Hin as [Hin|[X|Hin]]; [apply (K p); apply in_or_app; auto| |apply (K p); apply in_or_app; right; right; exact Hin].
    injection X as -> -> _. apply (K p1). apply in_or_app. right. left. reflexivity.
  - apply (K p). apply in_app_or in Hin as [Hin|Hin]; apply in_or_app; [auto|right; right; exact Hin].
Qed.

Lemma c81_answers : forall q n c o, pool_steps first_pool q -> In (mkThread n c (Done o)) (p_threads q) ->
  exists a, o = Ret a /\ answer_for c a.
Proof.
  intros q n c o H Hin. pose proof (steps_leaves q H _ Hin) as L. cbn [t_call t_rest leaves] in L.
  destruct c as [k|f|f p]; [exact L|exact L|].
  destruct (steps_start q n (CallExtract f p) _ H Hin) as (m & known & ts & tr & A & B & C).
  destruct (c43_isolated _ _ _ _ _ _ _ _ _ _ _ _ A B C Hin) as (_ & _ & r & _ & _ & _ & _ & _ & ->).
  exists (FromExtract r). split; [reflexivity|]. exists r. reflexivity.
Qed.

(** ** No extractor is returned twice *)

Lemma c81_fresh : forall q n1 n2 k1 k2 f1 f2, pool_steps first_pool q ->
  In (mkThread n1 (CallNew k1) (Done (Ret (FromNew (f1, None))))) (p_threads q) -> ~ In f1 (p_known q)
  /\ (In (mkThread n2 (CallNew k2) (Done (Ret (FromNew (f2, None))))) (p_threads q) -> n1 <> n2 -> f1 <> f2).
Proof.
  intros q n1 n2 k1 k2 f1 f2 H I1.
  destruct (steps_ok to_ascii hardcoded ext (fun _ => True) I _ _ _ (first_ok to_ascii _) H (fun _ _ _ => I))
    as (OT & OX & O & _ & T & _).
  assert (Own : forall n k f, In (mkThread n (CallNew k) (Done (Ret (FromNew (f, None))))) (p_threads q) -> exists x, OX n f = Some x).
  { intros n k f X. destruct (T _ X) as (_ & b & _ & S). cbn [t_call t_rest t_number safe] in S.
    destruct (S f (or_introl eq_refl)) as (x & t & Ex & _). exists x. exact Ex. }
  destruct (Own _ _ _ I1) as (x1 & E1). split; [apply (own_ext _ _ _ _ _ _ _ O _ _ _ E1)|].
  intros I2 N ->. destruct (Own _ _ _ I2) as (x2 & E2). apply N. exact (own_one_ext _ _ _ _ _ _ _ O _ _ _ _ _ E1 E2).
Qed.

(** ** Every call ends *)

Definition next (p' p : prog answer) : Prop := exists m tr m', advance m p tr m' p'.
Lemma next_acc : forall p, Acc next p.
Proof.
  induction p as [o|R o k IH|R o k IH]; constructor; intros p' (m & tr & m' & A); cbn [advance] in A; [contradiction| |].
  - destruct A as (_ & x & _ & ->). apply IH.
  - destruct A as (_ & _ & ->). apply IH.
Qed.

(** The programs of the running calls. *)
Inductive less : list (prog answer) -> list (prog answer) -> Prop :=
| less_next : forall l1 p' p l2, next p' p -> less (l1 ++ p' :: l2) (l1 ++ p :: l2)
| less_gone : forall l1 p l2, less (l1 ++ l2) (l1 ++ p :: l2).

Lemma less_cons : forall p l, Acc next p -> Acc less l -> Acc less (p :: l).
Proof.
  intros p l Ap Al. revert l Al. induction Ap as [p _ IHp]. intros l Al. induction Al as [l Hl IHl].
  constructor. intros y H. inversion H as [l1 p' p0 l2 N E1 E2|l1 p0 l2 E1 E2].
  - destruct l1 as [|x l1]; cbn [app] in *; injection E2 as -> <-.
    + apply IHp; [exact N|]. constructor. exact Hl.
    + apply IHl. apply less_next. exact N.
  - destruct l1 as [|x l1]; cbn [app] in *; injection E2 as -> <-.
    + constructor. exact Hl.
    + apply IHl. apply less_gone.
Qed.
Lemma less_acc : forall l, Acc less l.
Proof.
  induction l as [|p l IH].
  - constructor. intros y H. inversion H as [l1 p' p0 l2 N E1 E2|l1 p0 l2 E1 E2]; destruct l1; discriminate.
  - apply less_cons; [apply next_acc|exact IH].
Qed.

Lemma c81_finite : forall q, Acc (fun q' q => goes_on to_ascii hardcoded ext q q') q.
Proof.
  intros q. remember (map t_rest (p_threads q)) as l eqn:E. revert q E. induction (less_acc l) as [l _ IH]. intros q ->.
  constructor. intros q' (S & C). eapply IH; [|reflexivity].
  destruct S as [m known ts n tr c M|m known ts1 i c p ts2 n tr tr' m' p' Ad|m known ts1 i c r ts2 n tr];
    cbn [p_threads p_count] in *; [lia| |].
  - rewrite !map_app. cbn [map t_rest]. apply less_next. exists m, tr', m'. exact Ad.
  - rewrite !map_app. cbn [map t_rest]. apply less_gone.
Qed.

(** Nothing blocks: what is running can go on. *)
Lemma c81_progress : forall q, p_threads q <> [] -> exists q', goes_on to_ascii hardcoded ext q q'.
Proof.
  intros [m known [|[i c p] ts] n tr] H; [contradiction|].
  assert (W : forall tr' m' p', advance m p tr' m' p' -> exists q', goes_on to_ascii hardcoded ext (mkPool m known (mkThread i c p :: ts) n tr) q').
  { intros tr' m' p' A. eexists. split; [exact (works _ _ _ m known [] i c p ts n tr tr' m' p' A)|reflexivity]. }
  destruct p as [r|R o k|R o k].
  - eexists. split; [exact (returns _ _ _ m known [] i c r ts n tr)|reflexivity].
  - assert (X : exists x : R, True).
    { clear -o. destruct o; (exists [] || exists None || exists 0%Z || exists true || exists NoResponse); exact I. }
    destruct X as (x & _). apply (W [Event o x] m (k x)). split; [reflexivity|]. exists x. auto.
  - apply (W [] (snd (mem_step o m)) (k (fst (mem_step o m)))). split; [reflexivity|]. auto.
Qed.
End Ends.
