(** Properties of the further image utilities: region points, mipmaps, noise, rotation. *)
From Coq Require Import ZArith List Lia Bool QArith Qround Lqa.
From Verif Require Import Base Slices Enums Utility Image ImageSpec Elem Channels ChannelsProofs ChannelsProps ClearProps Endian Float Flip Pixels Scatter PixelsProofs PixelsProps Ilu IluCrop IluProps Ilu2.
Import ListNotations.
Open Scope Z_scope.

(** ** C76: histories of region calls *)

Definition only_float (o : rop) : Prop := match o with Iv _ _ => False | _ => True end.
Definition only_int (o : rop) : Prop := match o with Fv _ _ => False | _ => True end.

(** As long as only one of the two functions is used, no call touches a block that is not allocated, and
    exactly the block of the current points is allocated (no leak). *)
Theorem C76_region_partial : forall h, Forall only_float h \/ Forall only_int h ->
  exists r, rrun h region0 = Ok r /\
    live r = (match ri r with Some b => [b] | None => [] end) ++ (match rf r with Some b => [b] | None => [] end) /\
    (ri r = None \/ rf r = None).
Proof.
  intros h [Hf|Hi].
  - assert (G : forall h r, Forall only_float h -> ri r = None -> live r = match rf r with Some b => [b] | None => [] end ->
      exists r', rrun h r = Ok r' /\ ri r' = None /\ live r' = match rf r' with Some b => [b] | None => [] end).
    { clear. induction h as [|o h IH]; intros r F Hi Hl; [exists r; cbn; auto|]. inversion F as [|? ? Ho F']; subst. cbn [rrun].
      assert (K : exists r1, rstep o r = Ok r1 /\ ri r1 = None /\ live r1 = match rf r1 with Some b => [b] | None => [] end).
      { destruct r as [i f n l k]. cbn in Hi, Hl. subst i l. destruct o as [mem m|mem m|mem]; [|destruct Ho|]; cbn [rstep].
        - assert (B : both (mkRegion None f n match f with Some b => [b] | None => [] end k) = Ok (mkRegion None f n [] k)).
          { unfold both. cbn [ri free_points bind rf]. destruct f as [b|]; cbn [free_points rf live existsb filter]; [|reflexivity]. rewrite Z.eqb_refl. reflexivity. }
          unfold iluRegionfv. destruct (m =? 0).
          + rewrite B. cbn. eexists; split; [reflexivity|]. cbn. auto.
          + destruct (m <? 3); [eexists; split; [reflexivity|]; auto|]. rewrite B. cbn. destruct mem; eexists; (split; [reflexivity|]); cbn; auto.
        - unfold scan. cbn [ri rf num live fresh]. destruct f as [b|]; [|eexists; split; [reflexivity|]; auto].
          destruct (n =? 0); [eexists; split; [reflexivity|]; auto|]. destruct mem; cbn [negb].
          + cbn [existsb]. rewrite Z.eqb_refl. cbn. eexists; split; [reflexivity|]. auto.
          + eexists; split; [reflexivity|]. auto. }
      destruct K as (r1 & E & A & B). rewrite E. cbn [bind]. apply IH; auto. }
    destruct (G h region0 Hf) as (r & E & A & B); [reflexivity|reflexivity|]. exists r. rewrite A. auto.
  - assert (G : forall h r, Forall only_int h -> rf r = None -> live r = match ri r with Some b => [b] | None => [] end ->
      exists r', rrun h r = Ok r' /\ rf r' = None /\ live r' = match ri r' with Some b => [b] | None => [] end).
    { clear. induction h as [|o h IH]; intros r F Hi Hl; [exists r; cbn; auto|]. inversion F as [|? ? Ho F']; subst. cbn [rrun].
      assert (K : exists r1, rstep o r = Ok r1 /\ rf r1 = None /\ live r1 = match ri r1 with Some b => [b] | None => [] end).
      { destruct r as [i f n l k]. cbn in Hi, Hl. subst f l. destruct o as [mem m|mem m|mem]; [destruct Ho| |]; cbn [rstep].
        - assert (B : both (mkRegion i None n match i with Some b => [b] | None => [] end k) = Ok (mkRegion i None n [] k)).
          { unfold both. cbn [ri rf]. destruct i as [b|]; cbn [free_points bind rf live existsb filter]; [|reflexivity]. rewrite Z.eqb_refl. reflexivity. }
          unfold iluRegioniv. destruct (m =? 0).
          + rewrite B. cbn. eexists; split; [reflexivity|]. cbn. auto.
          + destruct (m <? 3); [eexists; split; [reflexivity|]; auto|]. rewrite B. cbn. destruct mem; eexists; (split; [reflexivity|]); cbn; auto.
        - unfold scan. cbn [ri rf num live fresh]. destruct i as [b|]; [|eexists; split; [reflexivity|]; auto].
          destruct (n =? 0); [eexists; split; [reflexivity|]; auto|].
          cbn [existsb]. rewrite Z.eqb_refl. cbn. eexists; split; [reflexivity|]. auto. }
      destruct K as (r1 & E & A & B). rewrite E. cbn [bind]. apply IH; auto. }
    destruct (G h region0 Hi) as (r & E & A & B); [reflexivity|reflexivity|]. exists r. rewrite A, app_nil_r. auto.
Qed.
Print Assumptions C76_region_partial.
Example C76_ex : Forall only_float [Fv true 5; Scan true; Fv true 3; Fv true 0; Fv true 4] /\
  match rrun [Fv true 5; Scan true; Fv true 3; Fv true 0; Fv true 4] region0 with Ok r => rf r <> None /\ num r = 4 | _ => False end.
Proof. split; [repeat constructor|]. vm_compute. split; [discriminate|reflexivity]. Qed.

(** Setting integer points and then float points (or the other way round) leaves a pointer to a released block:
    the next call that sets or clears points releases it again, and filling the region reads it. *)
Theorem C76_double_free_refuted : forall n1 n2 n mem, 3 <= n1 -> 3 <= n2 -> n = 0 \/ 3 <= n ->
  rrun [Iv true n1; Fv true n2; Fv mem n] region0 = UB /\ rrun [Iv true n1; Fv true n2; Iv mem n] region0 = UB /\
  rrun [Fv true n1; Iv true n2; Fv mem n] region0 = UB /\ rrun [Fv true n1; Iv true n2; Iv mem n] region0 = UB /\
  rrun [Fv true n1; Iv true n2; Scan true] region0 = UB.
Proof.
  intros n1 n2 n mem H1 H2 Hn.
  assert (F : forall m k r, 3 <= k -> iluRegionfv m k r = (let! r := both r in if m then Ok (mkRegion (ri r) (Some (fresh r)) k (fresh r :: live r) (fresh r + 1)) else Ok (mkRegion (ri r) None (num r) (live r) (fresh r)))).
  { intros. unfold iluRegionfv. replace (k =? 0) with false by lia. replace (k <? 3) with false by lia. reflexivity. }
  assert (I : forall m k r, 3 <= k -> iluRegioniv m k r = (let! r := both r in if m then Ok (mkRegion (Some (fresh r)) (rf r) k (fresh r :: live r) (fresh r + 1)) else Ok (mkRegion None (rf r) (num r) (live r) (fresh r)))).
  { intros. unfold iluRegioniv. replace (k =? 0) with false by lia. replace (k <? 3) with false by lia. reflexivity. }
  cbn [rrun rstep]. repeat (rewrite F by lia); repeat (rewrite I by lia). cbn.
  repeat (rewrite F by lia); repeat (rewrite I by lia). cbn.
  assert (U : forall r, both r = UB -> iluRegionfv mem n r = UB /\ iluRegioniv mem n r = UB).
  { intros r E. unfold iluRegionfv, iluRegioniv. destruct Hn as [->|Hn]; [cbn; rewrite E; auto|].
    replace (n =? 0) with false by lia. replace (n <? 3) with false by lia. rewrite E. auto. }
  destruct (U (mkRegion (Some 1) (Some 2) n2 [2] 3)) as (U1 & U2); [reflexivity|].
  destruct (U (mkRegion (Some 2) (Some 1) n2 [2] 3)) as (U3 & U4); [reflexivity|].
  rewrite U1, U2, U3, U4. repeat split. unfold scan. cbn. replace (n2 =? 0) with false by lia. reflexivity.
Qed.
Print Assumptions C76_double_free_refuted.
