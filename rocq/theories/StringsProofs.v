(** C strings as lists: strcasecmp, strlen and the search for the last period. *)
From Coq Require Import ZArith List Lia Bool String.
From Verif Require Import Base Slices Enums Strings.
Import ListNotations.
Open Scope Z_scope.
Open Scope list_scope.

(** contents of a C string *)
Definition str (s : list Z) : Prop := Forall (fun c => 0 < c < 256) s.
Definition lower (s : list Z) : list Z := map tolower s.

Lemma rd_at : forall p c q, rd (p ++ c :: q) (zlen p) = Ok c.
Proof.
  intros p c q. assert (0 <= zlen p) by auto. assert (0 <= zlen q) by auto.
  rewrite rd_ok by (rewrite zlen_app, zlen_cons; lia). rewrite geti_app by lia.
  rewrite Z.ltb_irrefl, Z.sub_diag. reflexivity.
Qed.

Lemma tolower_0 : forall x, 0 <= x < 256 -> (tolower x = 0 <-> x = 0).
Proof. intros x H. unfold tolower. destruct ((65 <=? x) && (x <=? 90)) eqn:E; lia. Qed.

Lemma app_snoc : forall A (p : list A) c q, p ++ c :: q = (p ++ [c]) ++ q.
Proof. intros. rewrite <- app_assoc. reflexivity. Qed.
Lemma zlen_snoc : forall A (p : list A) c, zlen (p ++ [c]) = zlen p + 1.
Proof. intros. rewrite zlen_app. reflexivity. Qed.

Lemma strcasecmp_ok : forall t s pa pb fuel, str s -> str t -> (List.length t < fuel)%nat ->
  exists c, strcasecmp fuel (pa ++ s ++ [0]) (zlen pa) (pb ++ t ++ [0]) (zlen pb) = Ok c /\ (c = 0 <-> lower s = lower t).
Proof.
  induction t as [|y t IH]; intros s pa pb fuel Hs Ht Hf; (destruct fuel as [|fuel]; [cbn in Hf; lia|]); cbn [strcasecmp].
  - destruct s as [|x s]; cbn [app].
    + rewrite !rd_at. cbn [bind]. change (tolower 0 =? tolower 0) with true. cbn. exists 0. tauto.
    + rewrite !rd_at. cbn [bind]. inversion Hs as [|? ? Hx Hs']; subst. pose proof (tolower_0 x ltac:(lia)).
      change (tolower 0) with 0. destruct (tolower x =? 0) eqn:E; [lia|]. eexists. split; [reflexivity|]. cbn. split; [lia|discriminate].
  - inversion Ht as [|? ? Hy Ht']; subst. cbn in Hf. destruct s as [|x s]; cbn [app].
    + rewrite !rd_at. cbn [bind]. pose proof (tolower_0 y ltac:(lia)).
      change (tolower 0) with 0. destruct (0 =? tolower y) eqn:E; [lia|]. eexists. split; [reflexivity|]. cbn. split; [lia|discriminate].
    + inversion Hs as [|? ? Hx Hs']; subst. rewrite !rd_at. cbn [bind]. destruct (tolower x =? tolower y) eqn:E.
      * replace (x =? 0) with false by lia. rewrite (app_snoc _ pa), (app_snoc _ pb), <- !zlen_snoc with (c := x).
        rewrite <- (zlen_snoc _ pb y) at 1 || idtac.
        replace (zlen (pb ++ [x])) with (zlen (pb ++ [y])) by (rewrite !zlen_snoc; reflexivity).
        destruct (IH s (pa ++ [x]) (pb ++ [y]) fuel Hs' Ht' ltac:(lia)) as (c & -> & Hc).
        exists c. split; auto. unfold lower in *. cbn [map]. rewrite Hc. split; [intros ->; f_equal; lia|congruence].
      * eexists. split; [reflexivity|]. unfold lower. cbn [map]. split; [lia|]. intros X. injection X as X _. lia.
Qed.

Lemma iStrCmp_ok : forall p s t, str s -> str t ->
  exists c, iStrCmp (p ++ s ++ [0]) (zlen p) (cstr t) = Ok c /\ (c = 0 <-> lower s = lower t).
Proof.
  intros p s t Hs Ht. unfold iStrCmp. apply (strcasecmp_ok t s p []); auto.
  unfold cstr. rewrite app_length. cbn. lia.
Qed.

Lemma strlen_ok : forall s p fuel, str s -> (List.length s < fuel)%nat -> strlen_ fuel (p ++ s ++ [0]) (zlen p) = Ok (zlen p + zlen s).
Proof.
  induction s as [|c s IH]; intros p fuel H F; (destruct fuel as [|fuel]; [cbn in F; lia|]); cbn [strlen_ app].
  - rewrite rd_at. cbn [bind]. change (0 =? 0) with true. cbv iota. f_equal. rewrite zlen_nil. lia.
  - inversion H as [|? ? Hc H']; subst. rewrite rd_at. cbn [bind]. replace (c =? 0) with false by lia.
    rewrite app_snoc, <- zlen_snoc with (c := c). rewrite IH; auto; [|cbn in F; lia]. rewrite zlen_snoc, zlen_cons. f_equal. lia.
Qed.
Lemma ilStrLen_ok : forall s, str s -> ilStrLen (cstr s) = Ok (zlen s).
Proof.
  intros s H. unfold ilStrLen, cstr. apply (strlen_ok s [] _ H). rewrite app_length. cbn. lia.
Qed.

(** searching backwards from the end of [q] finds the period before it *)
Lemma find_dot_back : forall q p r n, ~ In 46 q -> (n > List.length q)%nat ->
  find_dot n (p ++ 46 :: q ++ r) (zlen p + zlen q) = Ok (Some (zlen p)).
Proof.
  induction q as [|c q IH] using rev_ind; intros p r n H Hn; (destruct n as [|n]; [lia|]); cbn [find_dot].
  - rewrite zlen_nil, Z.add_0_r. rewrite rd_at. cbn [bind]. reflexivity.
  - rewrite <- (app_assoc q [c] r). cbn [app].
    assert (E : rd (p ++ 46 :: q ++ c :: r) (zlen p + zlen (q ++ [c])) = Ok c).
    { replace (p ++ 46 :: q ++ c :: r) with ((p ++ 46 :: q) ++ c :: r) by (rewrite <- app_assoc; reflexivity).
      replace (zlen p + zlen (q ++ [c])) with (zlen (p ++ 46 :: q)) by (rewrite !zlen_app, !zlen_cons, zlen_nil; lia).
      apply rd_at. }
    rewrite E. cbn [bind]. destruct (c =? 46) eqn:Ec.
    + exfalso. apply H. apply in_or_app. right. left. lia.
    + replace (zlen p + zlen (q ++ [c]) - 1) with (zlen p + zlen q) by (rewrite zlen_snoc; lia).
      apply (IH p (c :: r)).
      * intros X. apply H. apply in_or_app. auto.
      * rewrite app_length in Hn. cbn in Hn. lia.
Qed.
Lemma find_dot_none : forall n s k, ~ In 46 s -> 0 <= k < zlen s -> (Z.of_nat n = k + 1) -> find_dot n s k = Ok None.
Proof.
  induction n as [|n IH]; intros s k H Hk Hn; cbn [find_dot]; [reflexivity|].
  rewrite rd_ok by lia. cbn [bind].
  assert (In (geti s k) s) by (unfold geti; apply nth_In; unfold zlen in Hk; lia).
  destruct (geti s k =? 46) eqn:E; [exfalso; apply H; replace 46 with (geti s k) by lia; auto|].
  destruct n as [|n]; [reflexivity|]. apply IH; auto; lia.
Qed.

Lemma iGetExtension_dot : forall base ext, str (base ++ 46 :: ext) -> ~ In 46 ext ->
  iGetExtension (cstr (base ++ 46 :: ext)) = Ok (Some (zlen base + 1)).
Proof.
  intros base ext H D. unfold iGetExtension. rewrite ilStrLen_ok by auto. cbn [bind].
  assert (0 <= zlen base) by auto. assert (0 <= zlen ext) by auto.
  rewrite zlen_app, zlen_cons. destruct (_ =? 0) eqn:E; [lia|].
  unfold cstr. rewrite <- app_assoc. cbn [app].
  replace (find_dot (Z.to_nat (zlen base + (1 + zlen ext) + 1)) (base ++ 46 :: ext ++ [0]) (zlen base + (1 + zlen ext)))
    with (find_dot (Z.to_nat (zlen base + (1 + zlen ext) + 1)) (base ++ 46 :: (ext ++ [0]) ++ []) (zlen base + zlen (ext ++ [0]))).
  2:{ rewrite app_nil_r. rewrite zlen_snoc. replace (zlen base + (zlen ext + 1)) with (zlen base + (1 + zlen ext)) by ring. reflexivity. }
  rewrite find_dot_back.
  - reflexivity.
  - intros X. apply in_app_or in X. destruct X as [X|[X|[]]]; [auto|lia].
  - rewrite app_length. cbn [List.length]. unfold zlen in *. lia.
Qed.
Lemma iGetExtension_none : forall s, str s -> ~ In 46 s -> iGetExtension (cstr s) = Ok None.
Proof.
  intros s H D. unfold iGetExtension. rewrite ilStrLen_ok by auto. cbn [bind]. assert (0 <= zlen s) by auto.
  destruct (zlen s =? 0) eqn:E; [reflexivity|]. rewrite find_dot_none; [reflexivity| | |].
  - unfold cstr. intros X. apply in_app_or in X. destruct X as [X|[X|[]]]; [auto|lia].
  - unfold cstr. rewrite zlen_snoc. lia.
  - lia.
Qed.
