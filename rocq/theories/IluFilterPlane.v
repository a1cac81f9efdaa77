(** C79: what a convolution does to a plane when the memory behind the image can be read. *)
From Coq Require Import ZArith List Lia Bool.
From Verif Require Import Base Slices Enums Utility Image ImageSpec Elem Ilu Ilu2.
Import ListNotations.
Open Scope Z_scope.

Section Plane.
Variables (q : Z -> Z) (m src : list Z) (W H B b : Z).
Hypothesis HW : 2 <= W.
Hypothesis HH : 2 <= H.
Hypothesis HB : 1 <= B.
Hypothesis Hb : 0 <= b.
Hypothesis Hs : b + H * (W * B) + 2 * B <= zlen src.

(** where channel [c] of the pixel (x, y) is *)
Definition at_ (x y c : Z) : Z := b + (y * W + x) * B + c.
(** the nine values that are weighted for the pixel (x, y): inside, the neighbours with the last one wrong; in
    the first and last row the row itself in place of the missing one; in the first and last column the pixel
    and the two that follow it in memory *)
Definition samples (x y c : Z) : list Z :=
  let p dx dy := at_ (x + dx) (y + dy) c in
  if (x =? 0) || (x =? W - 1) then [p 0 (-1); p 1 (-1); p 2 (-1); p 0 0; p 1 0; p 2 0; p 0 1; p 1 1; p 2 1]
  else if y =? 0 then [p (-1) 0; p 0 0; p 1 0; p (-1) 0; p 0 0; p 1 0; p (-1) 1; p 0 1; p (-1) 1]
  else if y =? H - 1 then [p (-1) (-1); p 0 (-1); p 1 (-1); p (-1) 0; p 0 0; p 1 0; p (-1) 0; p 0 0; p (-1) 0]
  else [p (-1) (-1); p 0 (-1); p 1 (-1); p (-1) 0; p 0 0; p 1 0; p (-1) 1; p 0 1; p (-1) 1].
Definition corner (x y : Z) : bool := ((x =? 0) || (x =? W - 1)) && ((y =? 0) || (y =? H - 1)).
(** the sum of products of two lists *)
Fixpoint dot (l k : list Z) : Z := match l, k with a :: l, c :: k => a * c + dot l k | _, _ => 0 end.
Definition filtered (x y c : Z) : Z :=
  if corner x y then geti src (at_ x y c) else Z.min 255 (q (dot (map (geti src) (samples x y c)) m)).

Hypothesis Hm : length m = 9%nat.
Variable d0 : list Z.
Hypothesis Hd0 : b + H * (W * B) <= zlen d0.

Definition inside (x y c : Z) : Prop := 0 <= x < W /\ 0 <= y < H /\ 0 <= c < B.
Definition Good (P : Z -> Z -> Z -> Prop) (d : list Z) : Prop :=
  zlen d = zlen d0 /\ (forall k, 0 <= k < zlen d0 -> k < b \/ b + H * (W * B) <= k -> geti d k = geti d0 k) /\
  forall x y c, inside x y c -> P x y c -> geti d (at_ x y c) = filtered x y c.

Lemma at_bound : forall x y c, inside x y c -> b <= at_ x y c < b + H * (W * B).
Proof using.
  clear. intros x y c (Hx & Hy & Hc). unfold at_. assert (0 <= y * W) by (apply Z.mul_nonneg_nonneg; lia). assert (0 <= (y * W + x) * B) by (apply Z.mul_nonneg_nonneg; lia).
  assert ((y * W + x + 1) * B <= H * W * B). { apply Z.mul_le_mono_nonneg_r; [lia|]. assert ((y + 1) * W <= H * W) by (apply Z.mul_le_mono_nonneg_r; lia). lia. }
  lia.
Qed.
Lemma at_inj : forall x y c x' y' c', inside x y c -> inside x' y' c' -> at_ x y c = at_ x' y' c' -> x = x' /\ y = y' /\ c = c'.
Proof using.
  clear. intros x y c x' y' c' (Hx & Hy & Hc) (Hx' & Hy' & Hc') E. unfold at_ in E.
  assert (P : y * W + x = y' * W + x' /\ c = c').
  { apply (Z.div_mod_unique B); [left; lia | left; lia | lia]. }
  destruct P as (P & ->). assert (Q : y = y' /\ x = x') by (apply (Z.div_mod_unique W); [left; lia | left; lia | lia]). intuition.
Qed.

Lemma put_ok : forall P d x y c, Good P d -> inside x y c ->
  exists d', wr d (at_ x y c) (filtered x y c) = Ok d' /\ Good (fun x' y' c' => P x' y' c' \/ x' = x /\ y' = y /\ c' = c) d'.
Proof using HW HH HB Hb Hs Hm Hd0.
  intros P d x y c (L & O & G) I. pose proof (at_bound x y c I) as A. rewrite wr_ok by lia. eexists. split; [reflexivity|]. split; [|split].
  - rewrite zlen_upd by lia. exact L.
  - intros k Hk Ho. rewrite geti_upd by lia. replace (k =? at_ x y c) with false by lia. auto.
  - intros x' y' c' I' [HP | (-> & -> & ->)].
    + pose proof (at_bound _ _ _ I') as A'. rewrite geti_upd by lia. destruct (at_ x' y' c' =? at_ x y c) eqn:Q; [|apply G; auto].
      apply Z.eqb_eq in Q. destruct (at_inj _ _ _ _ _ _ I' I Q) as (-> & -> & ->). reflexivity.
    + rewrite geti_upd by lia. rewrite Z.eqb_refl. reflexivity.
Qed.

(** a loop that adds to what is done *)
Lemma grow : forall (P : Z -> Z -> Z -> Prop) (Q : Z -> Z -> Z -> Z -> Prop) lo hi body d, lo <= hi -> Good P d ->
  (forall k R d, lo <= k < hi -> Good R d -> exists d', body k d = Ok d' /\ Good (fun x y c => R x y c \/ Q k x y c) d') ->
  exists d', loop lo hi body d = Ok d' /\ Good (fun x y c => P x y c \/ exists k, lo <= k < hi /\ Q k x y c) d'.
Proof using.
  clear. intros P Q lo hi body d Hlh HG Hstep.
  destruct (loop_rule _ (fun k d => Good (fun x y c => P x y c \/ exists j, lo <= j < k /\ Q j x y c) d) lo hi body d Hlh) as (d' & E & K).
  - destruct HG as (L & O & G). split; [exact L|]. split; [exact O|]. intros x y c I [HP | (j & Hj & _)]; [auto | lia].
  - intros k e Hk HK. destruct (Hstep k _ e Hk HK) as (e' & E' & (L & O & G)). exists e'. split; [exact E'|]. split; [exact L|]. split; [exact O|].
    intros x y c I [HP | (j & Hj & HQ)]; apply G; auto. destruct (Z.eq_dec j k) as [-> | ]; [auto | left; right; exists j; split; [lia|auto]].
  - exists d'. auto.
Qed.

Lemma conv_ok : forall x y c, 0 <= c < B -> 0 <= x < W -> 0 <= y < H -> corner x y = false -> conv9 q m src (samples x y c) = Ok (filtered x y c).
Proof using HW HH HB Hb Hs Hm. clear Hd0 d0.
  intros x y c Hc Hx Hy HC. unfold filtered. rewrite HC.
  assert (K : Forall (fun p => 0 <= p < zlen src) (samples x y c)).
  { assert (AR : forall dx dy, 0 <= (y + dy) * W + (x + dx) -> (y + dy) * W + (x + dx) <= H * W + 1 -> 0 <= at_ (x + dx) (y + dy) c < zlen src).
    { intros dx dy A1 A2. unfold at_. assert (0 <= ((y + dy) * W + (x + dx)) * B) by (apply Z.mul_nonneg_nonneg; lia).
      assert (((y + dy) * W + (x + dx)) * B <= (H * W + 1) * B) by (apply Z.mul_le_mono_nonneg_r; lia). lia. }
    assert (YW : forall n, 0 <= n -> 0 <= n * W) by (intros; apply Z.mul_nonneg_nonneg; lia). assert (MW : forall a e, a <= e -> a * W <= e * W) by (intros; apply Z.mul_le_mono_nonneg_r; lia).
    unfold corner in HC. unfold samples. destruct ((x =? 0) || (x =? W - 1)) eqn:Qx.
    - assert (1 <= y <= H - 2) by lia. pose proof (YW (y - 1) ltac:(lia)). pose proof (MW (y + 1) (H - 1) ltac:(lia)). repeat constructor; apply AR; lia.
    - destruct (y =? 0) eqn:Qy; [|destruct (y =? H - 1) eqn:Qh].
      + pose proof (MW (y + 1) (H - 1) ltac:(lia)). repeat constructor; apply AR; lia.
      + pose proof (YW (y - 1) ltac:(lia)). pose proof (MW y (H - 1) ltac:(lia)). repeat constructor; apply AR; lia.
      + pose proof (YW (y - 1) ltac:(lia)). pose proof (MW (y + 1) (H - 1) ltac:(lia)). repeat constructor; apply AR; lia. }
  assert (L9 : exists o0 o1 o2 o3 o4 o5 o6 o7 o8, samples x y c = [o0; o1; o2; o3; o4; o5; o6; o7; o8]).
  { unfold samples. destruct ((x =? 0) || (x =? W - 1)); [|destruct (y =? 0); [|destruct (y =? H - 1)]]; do 9 eexists; reflexivity. }
  destruct L9 as (o0 & o1 & o2 & o3 & o4 & o5 & o6 & o7 & o8 & E). rewrite E in *. repeat match goal with X : Forall _ (_ :: _) |- _ => inversion X; clear X; subst end.
  do 9 (destruct m as [|? m']; [discriminate Hm|]; clear m; rename m' into m). destruct m as [|? m']; [|discriminate Hm].
  unfold conv9. repeat match goal with |- context [geti (?a :: ?l) ?i] => let v := eval cbv [geti nth Z.to_nat Pos.to_nat Pos.iter_op Nat.add] in (geti (a :: l) i) in change (geti (a :: l) i) with v end.
  rewrite !rd_ok by assumption. cbn [bind map dot]. f_equal. rewrite !Z.add_0_r. rewrite !Z.add_assoc.
  match goal with |- (if 255 <? q ?n then _ else _) = _ => set (n0 := n) end. destruct (255 <? q n0) eqn:Q; lia.
Qed.

Lemma put9_ok : forall P d x y c o t, Good P d -> inside x y c -> corner x y = false -> o = samples x y c -> t = at_ x y c ->
  exists d', put9 q m src o t d = Ok d' /\ Good (fun x' y' c' => P x' y' c' \/ x' = x /\ y' = y /\ c' = c) d'.
Proof using HW HH HB Hb Hs Hm Hd0.
  intros P d x y c o t HG I HC -> ->. unfold put9. destruct I as (Hx & Hy & Hc). rewrite conv_ok by auto. cbn [bind]. apply put_ok; auto. repeat split; lia.
Qed.
Lemma copy_ok : forall P d x y c i, Good P d -> inside x y c -> corner x y = true -> b + i + c = at_ x y c ->
  exists d', (let! v := rd src (b + i + c) in wr d (b + i + c) v) = Ok d' /\ Good (fun x' y' c' => P x' y' c' \/ x' = x /\ y' = y /\ c' = c) d'.
Proof using HW HH HB Hb Hs Hm Hd0.
  intros P d x y c i HG I HC E. rewrite E. pose proof (at_bound x y c I) as A. rewrite rd_ok by lia. cbn [bind]. destruct (put_ok P d x y c HG I) as (d' & E' & G').
  exists d'. split; auto. unfold filtered in E'. rewrite HC in E'. exact E'.
Qed.

Lemma weaken : forall (P Q : Z -> Z -> Z -> Prop) d, Good P d -> (forall x y c, inside x y c -> Q x y c -> P x y c) -> Good Q d.
Proof using. clear. intros P Q d (L & O & G) HPQ. split; [exact L|]. split; [exact O|]. intros x y c I HQ. apply G; auto. Qed.

Lemma plane_ok : exists d', filter_plane q m src W H B b d0 = Ok d' /\ Good (fun _ _ _ => True) d'.
Proof using HW HH HB Hb Hs Hm Hd0.
  assert (G0 : Good (fun _ _ _ => False) d0) by (split; [reflexivity|]; split; [auto | intros; contradiction]).
  unfold filter_plane. cbv zeta.
  (* the inner pixels *)
  match goal with |- context [loop 1 (H - 1) ?body d0] =>
    destruct (grow _ (fun y0 x y c => y = y0 /\ exists x0, 1 <= x0 < W - 1 /\ x = x0 /\ exists c0, 0 <= c0 < B /\ c = c0) 1 (H - 1) body d0 ltac:(lia) G0) as (d1 & E1 & G1) end.
  { intros y R d Hy HR.
    destruct (grow R (fun x0 x y' c => y' = y /\ x = x0 /\ exists c0, 0 <= c0 < B /\ c = c0) 1 (W - 1) (fun x => loop 0 B (fun c d => put9 q m src [b + ((y + -1) * W + (x + -1)) * B + c; b + ((y + -1) * W + (x + 0)) * B + c; b + ((y + -1) * W + (x + 1)) * B + c; b + ((y + 0) * W + (x + -1)) * B + c; b + ((y + 0) * W + (x + 0)) * B + c; b + ((y + 0) * W + (x + 1)) * B + c; b + ((y + 1) * W + (x + -1)) * B + c; b + ((y + 1) * W + (x + 0)) * B + c; b + ((y + 1) * W + (x + -1)) * B + c] (b + ((y + 0) * W + (x + 0)) * B + c) d)) d ltac:(lia) HR) as (d' & E' & G').
    { intros x R2 d2 Hx HR2.
      match goal with |- exists d', loop 0 B ?body d2 = _ /\ _ => destruct (grow R2 (fun c0 x' y' c => y' = y /\ x' = x /\ c = c0) 0 B body d2 ltac:(lia) HR2) as (d' & E' & G') end.
      { intros c R3 d3 Hc HR3. destruct (put9_ok R3 d3 x y c _ (b + ((y + 0) * W + (x + 0)) * B + c) HR3 ltac:(unfold inside; lia) ltac:(unfold corner; lia) eq_refl ltac:(unfold at_; ring)) as (d' & E' & G').
        exists d'. split; [rewrite <- E'; unfold samples; replace ((x =? 0) || (x =? W - 1)) with false by lia; replace (y =? 0) with false by lia; replace (y =? H - 1) with false by lia; reflexivity|].
        eapply weaken; [exact G'|]. cbn beta. intros. intuition. }
      exists d'. split; [exact E'|]. eapply weaken; [exact G'|]. cbn beta. intros x1 y1 c1 I1 [Q | (Q1 & Q2 & c0 & Q3 & ->)]; [auto | right; exists c0; auto]. }
    exists d'. split; [exact E'|]. eapply weaken; [exact G'|]. cbn beta. intros x1 y1 c1 I1 [Q | (Q1 & x0 & Q2 & -> & Q3)]; [auto | right; exists x0; auto]. }
  rewrite E1. cbn [bind]. clear E1.
  (* the corners *)
  match goal with |- context [loop 0 B ?body d1] =>
    destruct (grow _ (fun c0 x y c => c = c0 /\ corner x y = true) 0 B body d1 ltac:(lia) G1) as (d2 & E2 & G2) end.
  { intros c R d Hc HR.
    destruct (copy_ok R d 0 0 c 0 HR ltac:(unfold inside; lia) ltac:(unfold corner; lia) ltac:(unfold at_; ring)) as (e1 & E1 & K1). rewrite E1. cbn [bind].
    destruct (copy_ok _ e1 (W - 1) 0 c (W * B - B) K1 ltac:(unfold inside; lia) ltac:(unfold corner; lia) ltac:(unfold at_; ring)) as (e2 & E2 & K2). rewrite E2. cbn [bind].
    destruct (copy_ok _ e2 0 (H - 1) c ((H - 1) * (W * B)) K2 ltac:(unfold inside; lia) ltac:(unfold corner; lia) ltac:(unfold at_; ring)) as (e3 & E3 & K3). rewrite E3. cbn [bind].
    destruct (copy_ok _ e3 (W - 1) (H - 1) c (H * (W * B) - B) K3 ltac:(unfold inside; lia) ltac:(unfold corner; lia) ltac:(unfold at_; ring)) as (e4 & E4 & K4). rewrite E4.
    exists e4. split; [reflexivity|]. eapply weaken; [exact K4|]. cbn beta. intros x1 y1 c1 I1 [Q | (-> & Q)]; [auto 10|].
    unfold corner in Q. assert ((x1 = 0 \/ x1 = W - 1) /\ (y1 = 0 \/ y1 = H - 1)) as ([-> | -> ] & [-> | -> ]) by lia; auto 10. }
  rewrite E2. cbn [bind]. clear E2.
  (* the first row *)
  match goal with |- context [loop 1 (W - 1) ?body d2] =>
    destruct (grow _ (fun x0 x y c => x = x0 /\ y = 0) 1 (W - 1) body d2 ltac:(lia) G2) as (d3 & E3 & G3) end.
  { intros x R d Hx HR.
    match goal with |- exists d', loop 0 B ?body d = _ /\ _ => destruct (grow R (fun c0 x' y' c => y' = 0 /\ x' = x /\ c = c0) 0 B body d ltac:(lia) HR) as (d' & E' & G') end.
    { intros c R3 e3 Hc HR3. edestruct (put9_ok R3 e3 x 0 c) as (d' & E' & G'); [exact HR3 | unfold inside; lia | unfold corner; lia | | | exists d'; split; [exact E'|]].
      - unfold samples. replace ((x =? 0) || (x =? W - 1)) with false by lia. cbn [Z.eqb]. unfold at_. repeat (f_equal; try ring).
      - unfold at_. ring.
      - eapply weaken; [exact G'|]. cbn beta. intros. intuition. }
    exists d'. split; [exact E'|]. eapply weaken; [exact G'|]. cbn beta. intros x1 y1 c1 I1 [Q | (-> & ->)]; [auto | right; exists c1; destruct I1 as (_ & _ & I1); auto]. }
  rewrite E3. cbn [bind]. clear E3.
  (* the last row *)
  match goal with |- context [loop 1 (W - 1) ?body d3] =>
    destruct (grow _ (fun x0 x y c => x = x0 /\ y = H - 1) 1 (W - 1) body d3 ltac:(lia) G3) as (d4 & E4 & G4) end.
  { intros x R d Hx HR.
    match goal with |- exists d', loop 0 B ?body d = _ /\ _ => destruct (grow R (fun c0 x' y' c => y' = H - 1 /\ x' = x /\ c = c0) 0 B body d ltac:(lia) HR) as (d' & E' & G') end.
    { intros c R3 e3 Hc HR3. edestruct (put9_ok R3 e3 x (H - 1) c) as (d' & E' & G'); [exact HR3 | unfold inside; lia | unfold corner; lia | | | exists d'; split; [exact E'|]].
      - unfold samples. replace ((x =? 0) || (x =? W - 1)) with false by lia. replace (H - 1 =? 0) with false by lia. rewrite Z.eqb_refl. unfold at_. repeat (f_equal; try ring).
      - unfold at_. ring.
      - eapply weaken; [exact G'|]. cbn beta. intros. intuition. }
    exists d'. split; [exact E'|]. eapply weaken; [exact G'|]. cbn beta. intros x1 y1 c1 I1 [Q | (-> & ->)]; [auto | right; exists c1; destruct I1 as (_ & _ & I1); auto]. }
  rewrite E4. cbn [bind]. clear E4.
  (* the first column *)
  match goal with |- context [loop 1 (H - 1) ?body d4] =>
    destruct (grow _ (fun y0 x y c => y = y0 /\ x = 0) 1 (H - 1) body d4 ltac:(lia) G4) as (d5 & E5 & G5) end.
  { intros y R d Hy HR.
    match goal with |- exists d', loop 0 B ?body d = _ /\ _ => destruct (grow R (fun c0 x' y' c => y' = y /\ x' = 0 /\ c = c0) 0 B body d ltac:(lia) HR) as (d' & E' & G') end.
    { intros c R3 e3 Hc HR3. edestruct (put9_ok R3 e3 0 y c) as (d' & E' & G'); [exact HR3 | unfold inside; lia | unfold corner; lia | | | exists d'; split; [exact E'|]].
      - unfold samples. cbn [Z.eqb orb]. unfold at_. repeat (f_equal; try ring).
      - unfold at_. ring.
      - eapply weaken; [exact G'|]. cbn beta. intros. intuition. }
    exists d'. split; [exact E'|]. eapply weaken; [exact G'|]. cbn beta. intros x1 y1 c1 I1 [Q | (-> & ->)]; [auto | right; exists c1; destruct I1 as (_ & _ & I1); auto]. }
  rewrite E5. cbn [bind]. clear E5.
  (* the last column *)
  match goal with |- context [loop 1 (H - 1) ?body d5] =>
    destruct (grow _ (fun y0 x y c => y = y0 /\ x = W - 1) 1 (H - 1) body d5 ltac:(lia) G5) as (d6 & E6 & G6) end.
  { intros y R d Hy HR.
    match goal with |- exists d', loop 0 B ?body d = _ /\ _ => destruct (grow R (fun c0 x' y' c => y' = y /\ x' = W - 1 /\ c = c0) 0 B body d ltac:(lia) HR) as (d' & E' & G') end.
    { intros c R3 e3 Hc HR3. edestruct (put9_ok R3 e3 (W - 1) y c) as (d' & E' & G'); [exact HR3 | unfold inside; lia | unfold corner; lia | | | exists d'; split; [exact E'|]].
      - unfold samples. rewrite Z.eqb_refl, orb_true_r. unfold at_. repeat (f_equal; try ring).
      - unfold at_. ring.
      - eapply weaken; [exact G'|]. cbn beta. intros. intuition. }
    exists d'. split; [exact E'|]. eapply weaken; [exact G'|]. cbn beta. intros x1 y1 c1 I1 [Q | (-> & ->)]; [auto | right; exists c1; destruct I1 as (_ & _ & I1); auto]. }
  exists d6. split; [exact E6|]. eapply weaken; [exact G6|]. cbn beta. intros x y c (Ix & Iy & Ic) _. clear - Ix Iy Ic HW HH.
  destruct (Z.eq_dec x 0) as [-> | X0].
  { destruct (Z.eq_dec y 0) as [-> | Y0]; [do 4 left; right; exists c; split; [lia|]; split; auto; unfold corner; lia|].
    destruct (Z.eq_dec y (H - 1)) as [-> | Y1]; [do 4 left; right; exists c; split; [lia|]; split; auto; unfold corner; lia|].
    left; right. exists y. split; [lia|auto]. }
  destruct (Z.eq_dec x (W - 1)) as [-> | X1].
  { destruct (Z.eq_dec y 0) as [-> | Y0]; [do 4 left; right; exists c; split; [lia|]; split; auto; unfold corner; lia|].
    destruct (Z.eq_dec y (H - 1)) as [-> | Y1]; [do 4 left; right; exists c; split; [lia|]; split; auto; unfold corner; lia|].
    right. exists y. split; [lia|auto]. }
  destruct (Z.eq_dec y 0) as [-> | Y0]; [do 3 left; right; exists x; split; [lia|auto]|].
  destruct (Z.eq_dec y (H - 1)) as [-> | Y1]; [do 2 left; right; exists x; split; [lia|auto]|].
  do 5 left. right. exists y. split; [lia|]. split; auto. exists x. split; [lia|]. split; auto. exists c. split; [lia|auto].
Qed.
End Plane.

(** the channels of the pixels of a plane become [filtered], provided that the memory can be read for two pixels
    behind the plane; nothing else is changed *)
Theorem C79_plane_partial : forall q m src W H B b d, 2 <= W -> 2 <= H -> 1 <= B -> 0 <= b -> length m = 9%nat ->
  b + H * (W * B) + 2 * B <= zlen src -> b + H * (W * B) <= zlen d ->
  exists d', filter_plane q m src W H B b d = Ok d' /\ zlen d' = zlen d /\
    (forall x y c, 0 <= x < W -> 0 <= y < H -> 0 <= c < B -> geti d' (b + (y * W + x) * B + c) = filtered q m src W H B b x y c) /\
    (forall k, 0 <= k < zlen d -> k < b \/ b + H * (W * B) <= k -> geti d' k = geti d k).
Proof.
  intros q m src W H B b d HW HH HB Hb Hm Hs Hd. destruct (plane_ok q m src W H B b HW HH HB Hb Hs Hm d Hd) as (d' & E & L & O & G).
  exists d'. split; [exact E|]. split; [exact L|]. split; [|exact O]. intros x y c Hx Hy Hc. apply (G x y c); [repeat split; lia | exact I].
Qed.
Print Assumptions C79_plane_partial.
Example C79_plane_ex : exists d', filter_plane (fun s => s) [0; 0; 0; 0; 1; 1; 0; 0; 0] [1; 2; 3; 4; 5; 6; 7; 8; 9; 0; 0] 3 3 1 0 (repeat 0 9) = Ok d' /\
  d' = [1; 5; 3; 11; 11; 15; 7; 17; 9].
Proof. eexists. split; vm_compute; reflexivity. Qed.
