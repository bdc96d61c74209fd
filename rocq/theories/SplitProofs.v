(** SplitProofs.v - when two spellings of the labels of a host are divided in the same way. *)

From Verif Require Import Base BaseFacts Utf8 Utf8Facts Chars Str StrFacts Net Trie Extract Host HostFacts
  Walk WalkFacts Addr NetFacts Parse ParseFacts UrlSpec UrlFacts ExtractFacts OutcomeFacts Rfc UrlProofs CharProofs
  RuleSpec TrieFacts RuleProofs VariantProofs PslProofs GapProofs DivergeSpec DivergeProofs SplitSpec.
From Coq Require Import ZifyBool ZifyNat ZifyN.

(** C21 for a given decomposition, and the suffix is not empty if one is found. *)
Lemma c21_found : forall ext rules t p r scheme user raw h port path first zs segs, build_trie rules = Ret t ->
  extract ext t p = Ret (r, None) -> r_host_type r = HHostName ->
  url_parts ext p scheme user raw h port path -> labelled h first zs segs ->
  fst (walk rules [] (labels first segs)) <> None -> r_suffix r <> [].
Proof.
  intros ext rules t p r sc us raw h po pa first zs segs B H T U L F. apply build_trie_represents in B.
  destruct (host_name _ _ _ _ H T) as (sc' & us' & raw' & h' & po' & pa' & first' & zs' & segs' & c & U' & _ & _ & S & Hw & _ & Hs & _ & _ & ->).
  destruct (parts_unique _ _ _ _ _ _ _ _ _ _ _ _ _ _ U U') as (_ & _ & _ & <- & _ & _).
  destruct (stripped_unique _ _ _ _ _ _ _ L S) as (<- & <- & <-). cbn [r_suffix].
  destruct (host_parts t h first zs segs c S Hw Hs) as (pre & sep & rest & _ & _ & _ & A & _).
  destruct (walk rules [] (labels first segs)) as [e n] eqn:W.
  destruct (cwalk_walk t rules B _ [] t _ _ _ _ _ _ _ eq_refl Hw W) as (C & _). cbn [fst] in F.
  destruct e as [k|]; [|contradiction]. apply A. exact C.
Qed.

Definition position (w : option nat * nat) : nat * nat := match w with (Some k, n) => (k, n) | (None, _) => (0, 0) end.

Lemma division : forall ext rules t p r scheme user raw h port path first zs segs, build_trie rules = Ret t ->
  extract ext t p = Ret (r, None) -> r_host_type r = HHostName -> p_ignore_sub_domains p = false ->
  url_parts ext p scheme user raw h port path -> labelled h first zs segs ->
  forall k n, divided first segs r k n <-> position (walk rules [] (labels first segs)) = (k, n).
Proof.
  intros ext rules t p r sc us raw h po pa first zs segs B H T I U L k n.
  destruct (c21_at _ _ _ _ _ _ _ _ _ _ _ _ _ _ B H T U L) as (sub & Rep & Es). rewrite I in Es. subst sub.
  pose proof (c21_found _ _ _ _ _ _ _ _ _ _ _ _ _ _ B H T U L) as Fd.
  pose proof (proj1 (c17 _ _ _ _ H T)) as Nd.
  assert (F : Forall (fun g : seg => is_sep_text (snd g)) segs).
  { destruct L as (_ & Ws & _). apply well_split_app in Ws as [_ Ws]. eapply Forall_impl; [|exact Ws]. intros g [_ G]. exact G. }
  unfold reported in Rep. destruct (walk rules [] (labels first segs)) as [[k0|] n0] eqn:Hw; cbn [position fst] in *.
  - destruct Rep as (Ln & Sx & Dm & Sb). specialize (Fd ltac:(discriminate)). split.
    + intros (Lk & Sx' & Dm' & Sb').
      assert (n = n0) as ->. { eapply (below_inj first segs n n0 (r_domain r)); eauto; [lia|lia|congruence]. }
      f_equal. assert (k < n0).
      { destruct (Nat.eq_dec k n0) as [->|]; [|lia]. rewrite Nat.sub_diag in Sx'. contradiction. }
      assert (X : forall a b, a < b < n0 -> labels_text (firstn (n0 - a) (skipn a segs)) = labels_text (firstn (n0 - b) (skipn b segs)) -> False).
      { intros a b Lab Q. apply (f_equal (@length N)) in Q.
        assert (Ef : firstn (n0 - a) (skipn a segs) = firstn (b - a) (skipn a segs) ++ firstn (n0 - b) (skipn b segs)).
        { rewrite <- (firstn_skipn (b - a) (firstn (n0 - a) (skipn a segs))) at 1. rewrite firstn_firstn, skipn_firstn_comm, skipn_skipn'.
          replace (Nat.min (b - a) (n0 - a)) with (b - a) by lia. replace (n0 - a - (b - a)) with (n0 - b) by lia.
          replace (a + (b - a)) with b by lia. reflexivity. }
        rewrite Ef in Q.
        assert (Y : length (labels_text (firstn (n0 - b) (skipn b segs))) < length (labels_text (firstn (b - a) (skipn a segs) ++ firstn (n0 - b) (skipn b segs)))); [|lia].
        apply labels_text_tail.
        - apply Forall_forall. intros g Hg. rewrite Forall_forall in F. apply F.
          rewrite <- (firstn_skipn a segs). apply in_or_app. right. rewrite <- (firstn_skipn (b - a) (skipn a segs)). apply in_or_app. left. exact Hg.
        - intros Z. apply (f_equal (@length _)) in Z. rewrite firstn_length, skipn_length in Z. cbn [length] in Z. lia.
        - intros Z. apply (f_equal (@length _)) in Z. rewrite firstn_length, skipn_length in Z. cbn [length] in Z. lia. }
      rewrite Sx in Sx'. destruct (Nat.lt_trichotomy k k0) as [Q|[Q|Q]]; [|congruence|]; exfalso.
      * apply (X k k0); [lia|congruence].
      * apply (X k0 k); [lia|congruence].
    + intros Q. injection Q as <- <-. split; [lia|]. auto.
  - destruct Rep as (Sx & Dm & Sb). split.
    + intros (Lk & Sx' & Dm' & Sb').
      assert (n = 0) as ->. { eapply (below_inj first segs n 0 (r_domain r)); eauto; [lia|lia|congruence]. }
      f_equal. lia.
    + intros Q. injection Q as <- <-. split; [lia|]. auto.
Qed.

(** ** Escaped labels *)

Definition decoded_alike (l l' : bytes) : Prop := decoded l = decoded l'.
Lemma same_alike : forall labs labs', Forall2 same_decoding labs labs' -> Forall2 decoded_alike labs labs'.
Proof.
  intros labs labs' F. induction F as [|l l' labs labs' D F IH]; constructor; [|exact IH].
  unfold decoded_alike, decoded. apply same_decoding_pct in D. rewrite D. reflexivity.
Qed.

Lemma walk_escaped : forall rules (labs labs' path : list bytes), Forall2 decoded_alike labs labs' ->
  fst (walk rules path labs) = fst (walk rules path labs').
Proof.
  intros rules. induction labs as [|l labs IH]; intros labs' path F; inversion F as [|? l' ? more D F']; subst; [reflexivity|].
  cbn [walk]. assert (E : decoded l = decoded l') by exact D.
  destruct (known rules (path ++ [str "*"])); [reflexivity|]. rewrite E. destruct (known rules (path ++ [decoded l'])); [|reflexivity].
  specialize (IH more (path ++ [decoded l']) F'). destruct (walk rules _ labs), (walk rules _ more). cbn [fst] in *. rewrite IH. reflexivity.
Qed.
Lemma walk_escaped_far : forall rules (labs labs' path : list bytes), Forall2 decoded_alike labs labs' ->
  no_wildcard_along rules path ->
  (snd (walk rules path labs) <> snd (walk rules path labs') <->
   exists above l more above' l' more', labs = above ++ l :: more /\ labs' = above' ++ l' :: more' /\ length above = length above'
    /\ no_wildcard_along rules (path ++ map decoded above) /\ known rules (path ++ map decoded above ++ [str "*"]) = true
    /\ known rules (path ++ map decoded above ++ [str "!" ++ l]) <> known rules (path ++ map decoded above ++ [str "!" ++ l'])).
Proof.
  intros rules. induction labs as [|l labs IH]; intros labs' path F W; inversion F as [|? l' ? more D F']; subst.
  - split; [intros N; exfalso; apply N; reflexivity|]. intros (above & x & y & _ & _ & _ & E & _). destruct above; discriminate.
  - cbn [walk]. assert (E : decoded l = decoded l') by exact D.
    destruct (known rules (path ++ [str "*"])) eqn:Kw.
    + cbn [snd]. split.
      * intros N. exists [], l, labs, [], l', more. cbn [map app length]. rewrite app_nil_r. repeat (split; [auto|]).
        intros Q. rewrite Q in N. apply N. reflexivity.
      * intros (above & x & y & above' & x' & y' & Ea & Ea' & La & Wa & Ka & N).
        destruct above as [|a above].
        -- destruct above'; [|discriminate]. cbn [map app] in *. injection Ea as <- _. injection Ea' as <- _.
           destruct (known rules (path ++ [str "!" ++ l])), (known rules (path ++ [str "!" ++ l'])); try congruence; discriminate.
        -- exfalso. cbn [map] in Wa. rewrite (Wa path (decoded a) (map decoded above) eq_refl) in Kw. discriminate.
    + rewrite E. destruct (known rules (path ++ [decoded l'])) eqn:K.
      * assert (W' : no_wildcard_along rules (path ++ [decoded l'])).
        { intros q x y Eq. destruct y as [|y0 y] using rev_ind.
          - apply app_inj_tail in Eq as [-> _]. exact Kw.
          - clear IHy. change (q ++ x :: y ++ [y0]) with (q ++ (x :: y) ++ [y0]) in Eq. rewrite app_assoc in Eq.
            apply app_inj_tail in Eq as [-> _]. eapply W. reflexivity. }
        specialize (IH more (path ++ [decoded l']) F' W').
        destruct (walk rules (path ++ [decoded l']) labs) as [e n], (walk rules (path ++ [decoded l']) more) as [e' n']. cbn [snd] in *.
        split.
        -- intros N. destruct (proj1 IH ltac:(congruence)) as (above & x & y & above' & x' & y' & -> & -> & La & Wa & Ka & N').
           exists (l :: above), x, y, (l' :: above'), x', y'. cbn [map app length]. rewrite E. rewrite <- !app_assoc in *. cbn [app] in *.
           repeat (split; [auto|]). exact N'.
        -- intros (above & x & y & above' & x' & y' & Ea & Ea' & La & Wa & Ka & N).
           destruct above as [|a above]; [cbn [map app] in *; congruence|]. destruct above' as [|a' above']; [discriminate|].
           cbn [app] in Ea, Ea'. injection Ea as <- ->. injection Ea' as <- ->. cbn [map app] in Wa, Ka, N. rewrite E in *.
           assert (n <> n'); [|congruence]. apply IH. exists above, x, y, above', x', y'. rewrite <- !app_assoc. cbn [app].
           repeat (split; [auto|]). exact N.
      * cbn [snd]. split; [intros N; exfalso; apply N; reflexivity|].
        intros (above & x & y & above' & x' & y' & Ea & Ea' & La & Wa & Ka & N). exfalso.
        destruct above as [|a above]; [cbn [map app] in *; congruence|]. cbn [app] in Ea. injection Ea as <- _. cbn [map app] in Ka. rewrite E in Ka.
        change (decoded l' :: map decoded above ++ [str "*"]) with ([decoded l'] ++ map decoded above ++ [str "*"]) in Ka.
        rewrite app_assoc in Ka. apply known_prefix in Ka. congruence.
Qed.

Lemma c83 : forall ext rules t p p' r r' scheme user raw h port path first zs segs
    scheme' user' raw' h' port' path' first' zs' segs', build_trie rules = Ret t ->
  extract ext t p = Ret (r, None) -> extract ext t p' = Ret (r', None) ->
  r_host_type r = HHostName -> r_host_type r' = HHostName -> p_ignore_sub_domains p = false -> p_ignore_sub_domains p' = false ->
  url_parts ext p scheme user raw h port path -> labelled h first zs segs ->
  url_parts ext p' scheme' user' raw' h' port' path' -> labelled h' first' zs' segs' ->
  Forall2 same_decoding (labels first segs) (labels first' segs') ->
  (same_division first segs r first' segs' r' <-> r_suffix r = [] \/ ~ escape_matters rules (labels first segs) (labels first' segs')).
Proof.
  intros ext rules t p p' r r' sc us raw h po pa first zs segs sc' us' raw' h' po' pa' first' zs' segs' B H H' T T' I I' U L U' L' F. apply same_alike in F.
  pose proof (division _ _ _ _ _ _ _ _ _ _ _ _ _ _ B H T I U L) as D.
  pose proof (division _ _ _ _ _ _ _ _ _ _ _ _ _ _ B H' T' I' U' L') as D'.
  pose proof (walk_escaped rules _ _ [] F) as E. pose proof (walk_escaped_far rules _ _ [] F ltac:(intros q x y Z; destruct q; discriminate)) as N.
  cbn [app] in N. change (_ <-> ?x) with (snd (walk rules [] (labels first segs)) <> snd (walk rules [] (labels first' segs')) <-> escape_matters rules (labels first segs) (labels first' segs')) in N.
  pose proof (c21_found _ _ _ _ _ _ _ _ _ _ _ _ _ _ B H T U L) as Fd.
  destruct (c21_at _ _ _ _ _ _ _ _ _ _ _ _ _ _ B H T U L) as (sub & Rep & _). unfold reported in Rep.
  destruct (walk rules [] (labels first segs)) as [e n], (walk rules [] (labels first' segs')) as [e' n']. cbn [fst snd] in *. subst e'.
  unfold same_division. split.
  - intros (k & m & A & A'). rewrite D in A. rewrite D' in A'. destruct e as [k0|].
    + right. rewrite <- N. cbn [position] in A, A'. congruence.
    + left. apply Rep.
  - intros X. destruct e as [k0|].
    + destruct X as [X|X]; [exfalso; exact (Fd ltac:(discriminate) X)|]. rewrite <- N in X.
      assert (n = n') as <- by lia. exists k0, n. split; [apply D|apply D']; reflexivity.
    + exists 0, 0. split; [apply D|apply D']; reflexivity.
Qed.

(** ** Letter case *)

Lemma lower_path : forall rules path rest, Forall (fun rule => lower rule = rule) rules -> known rules (path ++ rest) = true -> Forall (fun k => lower k = k) path.
Proof.
  intros rules path rest F K. apply known_iff in K as (rule & q & Hr & E). rewrite Forall_forall in F. specialize (F rule Hr).
  assert (X : forall rule done cur, Forall (fun k => lower k = k) done -> lower cur = cur -> lower rule = rule ->
     Forall (fun k => lower k = k) (path_from done cur rule)).
  { clear. induction rule as [|b rule IH]; intros done cur Fd Fc Fr; cbn [path_from]; [constructor; assumption|].
    cbn [lower map] in Fr. injection Fr as Fb Fr. destruct (b =? 46)%N.
    - apply IH; [constructor; assumption|reflexivity|exact Fr].
    - apply IH; [exact Fd| |exact Fr]. unfold lower in *. rewrite map_app. cbn [map]. rewrite Fc, Fb. reflexivity. }
  specialize (X rule [] [] (Forall_nil _) eq_refl F). change (path_from [] [] rule) with (rule_path rule) in X. rewrite E in X.
  rewrite <- app_assoc in X. apply Forall_app in X as [X _]. exact X.
Qed.
Lemma lower_idem : forall l, lower (lower l) = lower l.
Proof.
  intros l. unfold lower. rewrite map_map. apply map_ext. intros b. unfold lower_byte.
  destruct ((65 <=? b) && (b <=? 90))%N eqn:E; [|rewrite E; reflexivity].
  replace ((65 <=? b + 32) && (b + 32 <=? 90))%N with false by lia. reflexivity.
Qed.

Section Case.
Variable rules : list bytes.
Hypothesis R : Forall (fun rule => lower rule = rule) rules.

Lemma lower_last : forall path k, known rules (path ++ [k]) = true -> lower k = k.
Proof.
  intros path k K. rewrite <- (app_nil_r (path ++ [k])) in K. apply (lower_path _ _ _ R) in K. apply Forall_app in K as [_ K]. inversion K; assumption.
Qed.
Lemma lower_exception : forall path l, known rules (path ++ [str "!" ++ l]) = true -> lower l = l.
Proof. intros path l K. apply lower_last in K. cbn in K. injection K as K. exact K. Qed.

Definition literal (l : bytes) : Prop := ~ In 37%N l /\ ~ In 43%N l.
Lemma literal_lower : forall l, literal l -> literal (lower l).
Proof.
  intros l (A & B). split; intros I; apply in_map_iff in I as (b & E & I); unfold lower_byte in E;
    destruct ((65 <=? b) && (b <=? 90))%N eqn:Z; subst; try lia; auto.
Qed.

Lemma walk_case_found : forall labs path k n, Forall literal labs -> walk rules path labs = (Some k, n) ->
  exists n', walk rules path (map lower labs) = (Some k, n').
Proof.
  induction labs as [|l labs IH]; intros path k n P H; [discriminate|]. cbn [walk map] in *. inversion P as [|? ? Pl P']; subst.
  destruct (known rules (path ++ [str "*"])); [discriminate|].
  rewrite (decoded_plain l) in H by apply Pl. rewrite (decoded_plain (lower l)) by apply (literal_lower l Pl).
  destruct (known rules (path ++ [l])) eqn:K; [|discriminate]. rewrite (lower_last _ _ K), K.
  destruct (walk rules (path ++ [l]) labs) as [e m] eqn:W. destruct (is_suffix rules (path ++ [l])).
  - injection H as <- _. destruct (walk rules (path ++ [l]) (map lower labs)). eauto.
  - destruct e as [k'|]; [|discriminate]. destruct (IH _ _ _ P' W) as (n' & ->). injection H as <- _. eexists. reflexivity.
Qed.

Definition case_from (path labs : list bytes) : Prop :=
  exists above l more, labs = above ++ l :: more /\ Forall (fun k => lower k = k) above /\ lower l <> l
    /\ no_wildcard_along rules (path ++ above)
    /\ (if known rules (path ++ above ++ [str "*"]) then known rules (path ++ above ++ [str "!" ++ lower l]) else known rules (path ++ above ++ [lower l])) = true.

Lemma walk_case : forall labs path, Forall literal labs -> no_wildcard_along rules path ->
  (case_from path labs -> snd (walk rules path labs) <> snd (walk rules path (map lower labs)))
  /\ (~ case_from path labs -> walk rules path labs = walk rules path (map lower labs)).
Proof.
  induction labs as [|l labs IH]; intros path P W.
  - split; [|reflexivity]. intros (above & x & y & E & _). destruct above; discriminate.
  - inversion P as [|? ? Pl P']; subst. cbn [walk map].
    rewrite (decoded_plain l) by apply Pl. rewrite (decoded_plain (lower l)) by apply (literal_lower l Pl).
    destruct (known rules (path ++ [str "*"])) eqn:Kw; cbn [snd].
    + split.
      * intros (above & x & y & E & Fa & Nx & Wa & C). destruct above as [|a above].
        -- cbn [app] in *. injection E as <- _. rewrite Kw in C. rewrite app_nil_r in Wa. rewrite C.
           destruct (known rules (path ++ [str "!" ++ l])) eqn:K; [|discriminate]. exfalso. apply Nx. exact (lower_exception _ _ K).
        -- exfalso. rewrite (Wa path a above eq_refl) in Kw. discriminate.
      * intros N. f_equal. destruct (list_eq_dec N.eq_dec (lower l) l) as [Q|Q]; [rewrite Q; reflexivity|].
        destruct (known rules (path ++ [str "!" ++ l])) eqn:K; [exfalso; apply Q; exact (lower_exception _ _ K)|].
        destruct (known rules (path ++ [str "!" ++ lower l])) eqn:K'; [|reflexivity]. exfalso. apply N.
        exists [], l, labs. cbn [app]. rewrite app_nil_r, Kw. auto 6.
    + destruct (list_eq_dec N.eq_dec (lower l) l) as [Q|Q].
      * rewrite Q. destruct (known rules (path ++ [l])) eqn:K.
        -- assert (W' : no_wildcard_along rules (path ++ [l])).
           { intros q x y Eq. destruct y as [|y0 y] using rev_ind.
             - apply app_inj_tail in Eq as [-> _]. exact Kw.
             - clear IHy. change (q ++ x :: y ++ [y0]) with (q ++ (x :: y) ++ [y0]) in Eq. rewrite app_assoc in Eq.
               apply app_inj_tail in Eq as [-> _]. eapply W. reflexivity. }
           destruct (IH (path ++ [l]) P' W') as [A A'].
           assert (X : case_from path (l :: labs) <-> case_from (path ++ [l]) labs).
           { split.
             - intros (above & x & y & E & Fa & Nx & Wa & C). destruct above as [|a above].
               + exfalso. cbn [app] in E. injection E as <- _. contradiction.
               + cbn [app] in E. injection E as <- ->. exists above, x, y. rewrite <- !app_assoc. cbn [app] in *. inversion Fa; subst. auto 6.
             - intros (above & x & y & E & Fa & Nx & Wa & C). exists (l :: above), x, y. rewrite <- !app_assoc in *. cbn [app] in *.
               rewrite E. split; [reflexivity|]. split; [constructor; assumption|]. auto. }
           rewrite X. destruct (walk rules (path ++ [l]) labs) as [e n], (walk rules (path ++ [l]) (map lower labs)) as [e' n']. cbn [snd] in *.
           split; [intros C; specialize (A C); congruence|]. intros C. specialize (A' C). injection A' as <- <-. reflexivity.
        -- cbn [snd]. split; [|reflexivity]. intros (above & x & y & E & Fa & Nx & Wa & C). exfalso. destruct above as [|a above].
           ++ cbn [app] in E. injection E as <- _. contradiction.
           ++ cbn [app] in E, C. injection E as <- _.
              assert (K' : forall z, known rules (path ++ l :: above ++ [z]) = false).
              { intros z. destruct (known rules (path ++ l :: above ++ [z])) eqn:Z; [|reflexivity].
                change (l :: above ++ [z]) with ([l] ++ above ++ [z]) in Z. rewrite app_assoc in Z. apply known_prefix in Z. congruence. }
              rewrite !K' in C. discriminate.
      * destruct (known rules (path ++ [l])) eqn:K; [exfalso; apply Q; exact (lower_last _ _ K)|].
        destruct (known rules (path ++ [lower l])) eqn:K'.
        -- destruct (walk rules (path ++ [lower l]) (map lower labs)) as [e n]. cbn [snd]. split; [discriminate|].
           intros N. exfalso. apply N. exists [], l, labs. cbn [app]. rewrite app_nil_r, Kw. auto 6.
        -- cbn [snd]. split; [|reflexivity]. intros (above & x & y & E & Fa & Nx & Wa & C). exfalso. destruct above as [|a above].
           ++ cbn [app] in E, C. injection E as <- _. rewrite Kw in C. congruence.
           ++ cbn [app] in E. injection E as <- _. inversion Fa; subst. contradiction.
Qed.
End Case.

Lemma c84 : forall ext rules t p p' r r' scheme user raw h port path first zs segs
    scheme' user' raw' h' port' path' first' zs' segs', build_trie rules = Ret t -> Forall (fun rule => lower rule = rule) rules ->
  extract ext t p = Ret (r, None) -> extract ext t p' = Ret (r', None) ->
  r_host_type r = HHostName -> r_host_type r' = HHostName -> p_ignore_sub_domains p = false -> p_ignore_sub_domains p' = false ->
  url_parts ext p scheme user raw h port path -> labelled h first zs segs ->
  url_parts ext p' scheme' user' raw' h' port' path' -> labelled h' first' zs' segs' ->
  Forall plain_label (labels first segs) -> labels first' segs' = map lower (labels first segs) ->
  (same_division first segs r first' segs' r' <-> r_suffix r' = [] \/ ~ case_matters rules (labels first segs)).
Proof.
  intros ext rules t p p' r r' sc us raw h po pa first zs segs sc' us' raw' h' po' pa' first' zs' segs' B R H H' T T' I I' U L U' L' P E.
  pose proof (division _ _ _ _ _ _ _ _ _ _ _ _ _ _ B H T I U L) as D.
  pose proof (division _ _ _ _ _ _ _ _ _ _ _ _ _ _ B H' T' I' U' L') as D'.
  pose proof (c21_found _ _ _ _ _ _ _ _ _ _ _ _ _ _ B H' T' U' L') as Fd.
  destruct (c21_at _ _ _ _ _ _ _ _ _ _ _ _ _ _ B H' T' U' L') as (sub & Rep & _). unfold reported in Rep.
  assert (Li : Forall literal (labels first segs)) by (eapply Forall_impl; [|exact P]; intros l (A & C & _); split; assumption).
  destruct (walk_case rules R (labels first segs) [] Li ltac:(intros q x y Z; destruct q; discriminate)) as [A A'].
  change (case_from rules [] (labels first segs)) with (case_matters rules (labels first segs)) in A, A'.
  pose proof (walk_case_found rules R (labels first segs) []) as Fk.
  rewrite E in *. destruct (walk rules [] (labels first segs)) as [e n] eqn:Hw, (walk rules [] (map lower (labels first segs))) as [e' n'] eqn:Hw'. cbn [fst snd] in *.
  unfold same_division. split.
  - intros (k & m & X & X'). rewrite D in X. rewrite D' in X'. destruct e' as [k'|]; [|left; apply Rep].
    right. intros C. specialize (A C). cbn [position] in X'. injection X' as <- <-. destruct e as [k0|]; cbn [position] in X; [congruence|].
    injection X as <- <-. destruct Rep as (Rep & _). lia.
  - intros X. destruct e' as [k'|].
    + destruct X as [X|X]; [exfalso; exact (Fd ltac:(discriminate) X)|]. specialize (A' X). injection A' as -> ->.
      exists k', n'. split; [apply D|apply D']; reflexivity.
    + assert (e = None) as ->.
      { destruct e as [k0|]; [|reflexivity]. destruct (Fk k0 n Li eq_refl) as (n2 & Z). discriminate Z. }
      exists 0, 0. split; [apply D|apply D']; reflexivity.
Qed.
