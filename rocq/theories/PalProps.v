(** C61: conversion of palettes. *)
From Coq Require Import ZArith QArith Qround Lqa List Lia Bool.
From Verif Require Import Base Slices Scatter Enums Utility Image ImageProps Elem Lump LumpProps Channels ChannelsProofs Float Endian EndianProps Raw RawProps Pal PalSpec PcxProps.
Import ListNotations.
Open Scope Z_scope.

(** ** Sizes in floating point *)
Lemma fl32_exact : forall x m e, 0 <= m < 2 ^ 24 -> -149 <= e -> (x == inject_Z m * p2 e)%Q -> (fl32 x == x)%Q.
Proof.
  intros x m e Hm He E. unfold fl32. apply rnd_exact; [lia| |].
  - assert (0 <= inject_Z m)%Q by (change 0%Q with (inject_Z 0); rewrite <- Zle_Qle; lia). assert (P := p2_pos e). rewrite E. apply Qmult_le_0_compat; lra.
  - exists m, e. auto.
Qed.
Lemma fl32_comp : forall x y, (0 <= x)%Q -> (x == y)%Q -> (fl32 x == fl32 y)%Q.
Proof. intros. unfold fl32. apply rnd_comp; auto; lia. Qed.
Lemma size34_exact : forall n, 0 <= n -> 3 * n < 2 ^ 24 -> size34 (4 * n) = 3 * n.
Proof.
  intros n H0 H. unfold size34. assert (N : (0 <= inject_Z n)%Q) by (change 0%Q with (inject_Z 0); rewrite <- Zle_Qle; lia).
  assert (P : (p2 2 == 4 # 1)%Q) by reflexivity.
  assert (E1 : (inject_Z (4 * n) == inject_Z n * (4 # 1))%Q) by (rewrite inject_Z_mult; change (inject_Z 4) with (4 # 1)%Q; ring).
  assert (F1 : (fl32 (inject_Z (4 * n)) == inject_Z n * (4 # 1))%Q) by (rewrite (fl32_exact (inject_Z (4 * n)) n 2); [exact E1|lia|lia|rewrite P; exact E1]).
  assert (E3 : (inject_Z (3 * n) == inject_Z n * (3 # 1))%Q) by (rewrite inject_Z_mult; change (inject_Z 3) with (3 # 1)%Q; ring).
  assert (F2 : (fl32 (fl32 (inject_Z (4 * n)) * (3 # 1)) == inject_Z (3 * n) * (4 # 1))%Q).
  { rewrite (fl32_comp _ (inject_Z (3 * n) * (4 # 1))); [|rewrite F1; lra|rewrite F1, E3; ring]. apply (fl32_exact _ (3 * n) 2); [lia|lia|rewrite P; reflexivity]. }
  assert (F3 : (fl32 (fl32 (fl32 (inject_Z (4 * n)) * (3 # 1)) / (4 # 1)) == inject_Z (3 * n))%Q).
  { rewrite (fl32_comp _ (inject_Z (3 * n))); [|rewrite F2, E3; unfold Qdiv; change (/ (4 # 1))%Q with (1 # 4)%Q; lra|rewrite F2; field].
    apply (fl32_exact _ (3 * n) 0); [lia|lia|]. change (p2 0) with 1%Q. ring. }
  rewrite (Qfloor_comp _ _ F3). apply Qfloor_Z.
Qed.

(** ** The loop *)
Definition cell (old : list Z) (i : Z) (c : pcell) : Z := match c with Cp k => geti old (i + k) | C255 => 255 end.
Definition cell_ok (old : list Z) (i : Z) (c : pcell) : Prop := match c with Cp k => 0 <= i + k < zlen old | C255 => True end.
Lemma put_entry_ok : forall old i cs j d, Forall (cell_ok old i) cs -> zlen old < 4294967296 -> zlen d < 4294967296 -> 0 <= j -> j + zlen cs <= zlen d ->
  exists d', put_entry old i j cs d = Ok d' /\ zlen d' = zlen d /\
    (forall q, 0 <= q < zlen cs -> geti d' (j + q) = cell old i (nth (Z.to_nat q) cs C255)) /\
    (forall q, 0 <= q < j \/ j + zlen cs <= q < zlen d -> geti d' q = geti d q).
Proof.
  intros old i. induction cs as [|c cs IH]; intros j d HF HO HD Hj HL.
  - exists d. cbn. repeat split; auto. intros q Hq. exfalso. unfold zlen in Hq. cbn in Hq. lia.
  - rewrite zlen_cons in *. assert (0 <= zlen cs) by auto. inversion HF as [|? ? Hc Hcs]; subst. cbn [put_entry].
    assert (E : (match c with Cp k => rd old (u32 (i + k)) | C255 => Ok 255 end) = Ok (cell old i c)).
    { destruct c as [k|]; [|reflexivity]. cbn in Hc. rewrite u32_small by lia. rewrite rd_ok by lia. reflexivity. }
    rewrite E. cbn [bind]. rewrite wr_ok by lia. cbn [bind]. 
    assert (exists d', put_entry old i (u32 (j + 1)) cs (upd d j (cell old i c)) = Ok d' /\ zlen d' = zlen d /\
      (forall q, 0 <= q < zlen cs -> geti d' (j + 1 + q) = cell old i (nth (Z.to_nat q) cs C255)) /\
      (forall q, 0 <= q < j + 1 \/ j + 1 + zlen cs <= q < zlen d -> geti d' q = geti (upd d j (cell old i c)) q)) as (d' & -> & L & G1 & G2).
    { destruct cs as [|c2 cs2].
      - cbn [put_entry]. eexists. split; [reflexivity|]. rewrite zlen_upd by lia. split; [auto|]. split; [intros q Hq; exfalso; unfold zlen in Hq; cbn in Hq; lia|auto].
      - rewrite (zlen_cons _ c2 cs2) in *. assert (0 <= zlen cs2) by auto. rewrite u32_small by lia. destruct (IH (j + 1) (upd d j (cell old i c))) as (d' & E' & L & G1 & G2); auto; rewrite ?zlen_upd by lia; try lia.
        rewrite zlen_upd in L, G2 by lia. exists d'. split; [exact E'|]. split; [lia|]. split; auto. }
    exists d'. split; [reflexivity|]. split; [exact L|]. split.
    + intros q Hq. destruct (Z.eq_dec q 0) as [->|N].
      * rewrite Z.add_0_r. rewrite G2 by lia. rewrite geti_upd by lia. rewrite Z.eqb_refl. reflexivity.
      * replace (j + q) with (j + 1 + (q - 1)) by lia. rewrite G1 by lia. replace (Z.to_nat q) with (S (Z.to_nat (q - 1))) by lia. reflexivity.
    + intros q Hq. rewrite G2 by lia. rewrite geti_upd by lia. replace (q =? j) with false by lia. reflexivity.
Qed.

Lemma put_all : forall old s t cs n d, 0 < s -> 0 < t -> zlen cs = t -> Forall (fun c => match c with Cp k => 0 <= k < s | C255 => True end) cs -> 0 <= n ->
  zlen old = n * s -> zlen d = n * t -> n * s < 4294967296 -> n * t < 4294967296 ->
  exists d', stride2 (n * s) s t (fun i j => put_entry old i j cs) d = Ok d' /\ zlen d' = n * t /\
    forall e o, 0 <= e < n -> 0 <= o < t -> geti d' (e * t + o) = cell old (e * s) (nth (Z.to_nat o) cs C255).
Proof.
  intros old s t cs n d Hs Ht Lc HF Hn LO LD Hws Hwt. rewrite stride2_loop by lia.
  destruct (loop_rule _ (fun p d' => zlen d' = n * t /\ forall e o, 0 <= e < p -> 0 <= o < t -> geti d' (e * t + o) = cell old (e * s) (nth (Z.to_nat o) cs C255))
    0 n (fun k => put_entry old (k * s) (k * t) cs) d) as (d' & -> & L & G); auto.
  - split; [auto|intros; lia].
  - intros p d1 Hp (L & G). assert (B := mul_bound p n s). assert (B2 := mul_bound p n t).
    assert ((p + 1) * s <= n * s) by (apply Z.mul_le_mono_nonneg_r; lia). assert ((p + 1) * t <= n * t) by (apply Z.mul_le_mono_nonneg_r; lia).
    assert (0 <= p * s) by (apply Z.mul_nonneg_nonneg; lia). assert (0 <= p * t) by (apply Z.mul_nonneg_nonneg; lia).
    destruct (put_entry_ok old (p * s) cs (p * t) d1) as (d2 & -> & L2 & G1 & G2); try lia.
    { eapply Forall_impl; [|exact HF]. intros [k|] Hk; cbn in *; lia. }
    exists d2. split; [reflexivity|]. split; [lia|]. intros e o He Ho. destruct (Z.eq_dec e p) as [->|N].
    + apply G1. lia.
    + assert ((e + 1) * t <= p * t) by (apply Z.mul_le_mono_nonneg_r; lia). assert (0 <= e * t) by (apply Z.mul_nonneg_nonneg; lia). rewrite G2 by lia. apply G; lia.
  - eauto.
Qed.

(** the cells of a plan: a plain copy has the same entries *)
Definition plan_cells (s : Z) (c : option (list pcell)) : list pcell :=
  match c with Some cs => cs | None => if s =? 3 then keep else keep ++ [Cp 3] end.

(** ** The plan for each pair of types: sizes and colours *)
Lemma plan_ok : forall Src Dst n, pal_type Src -> pal_type Dst -> 0 <= n -> 3 * n < 2 ^ 24 ->
  exists cells, pal_plan Src Dst (n * colour_size Src) = Some (n * colour_size Dst, colour_size Src, colour_size Dst, cells) /\
    zlen (plan_cells (colour_size Src) cells) = colour_size Dst /\
    Forall (fun c => match c with Cp k => 0 <= k < colour_size Src | C255 => True end) (plan_cells (colour_size Src) cells) /\
    (cells = None -> colour_size Src = colour_size Dst) /\
    forall old new i, 
      (forall o, 0 <= o < colour_size Dst -> geti new (i * colour_size Dst + o) = cell old (i * colour_size Src) (nth (Z.to_nat o) (plan_cells (colour_size Src) cells) C255)) ->
      colour Dst new i = held Dst (colour Src old i).
Proof.
  intros Src Dst n HS HD Hn Hb.
  assert (S34 : size34 (n * 4) = n * 3) by (replace (n * 4) with (4 * n) by ring; rewrite size34_exact by lia; ring).
  assert (U43 : u32 (n * 3 * 4) / 3 = n * 4) by (rewrite u32_small by lia; replace (n * 3 * 4) with (n * 4 * 3) by ring; apply Z.div_mul; lia).
  unfold pal_type in HS, HD. cbn [In] in HS, HD.
  destruct HS as [<-|[<-|[<-|[<-|[<-|[<-|[]]]]]]]; destruct HD as [<-|[<-|[<-|[<-|[<-|[<-|[]]]]]]];
    (eexists; split; [unfold pal_plan, colour_size; cbn [Z.eqb Pos.eqb orb andb IL_PAL_RGB24 IL_PAL_BGR24 IL_PAL_RGB32 IL_PAL_RGBA32 IL_PAL_BGR32 IL_PAL_BGRA32]; rewrite ?S34, ?U43; reflexivity|]);
    (split; [reflexivity|]); (split; [cbv [plan_cells keep swap colour_size app Z.eqb Pos.eqb orb IL_PAL_RGB24 IL_PAL_BGR24 IL_PAL_RGB32 IL_PAL_RGBA32 IL_PAL_BGR32 IL_PAL_BGRA32]; repeat (apply Forall_cons; [first [exact I|lia]|]); apply Forall_nil|]); (split; [intros X; try discriminate X; reflexivity|]);
    intros old new i H; unfold colour, held, colour_size, with_alpha, blue_first in *; cbn [Z.eqb Pos.eqb orb andb IL_PAL_RGB24 IL_PAL_BGR24 IL_PAL_RGB32 IL_PAL_RGBA32 IL_PAL_BGR32 IL_PAL_BGRA32 red green blue alpha] in *;
    assert (H0 := H 0 ltac:(lia)); assert (H1 := H 1 ltac:(lia)); assert (H2 := H 2 ltac:(lia)); try (assert (H3 := H 3 ltac:(lia))); clear H;
    change (Z.to_nat 0) with 0%nat in H0; change (Z.to_nat 1) with 1%nat in H1; change (Z.to_nat 2) with 2%nat in H2; try change (Z.to_nat 3) with 3%nat in H3;
    cbn [plan_cells keep swap app Z.eqb Pos.eqb nth cell] in H0, H1, H2; try (cbn [plan_cells keep swap app Z.eqb Pos.eqb nth cell] in H3); rewrite ?Z.add_0_r in H0; rewrite ?Z.add_0_r in H1; rewrite ?Z.add_0_r in H2; rewrite ?H0, ?H1, ?H2, ?H3; reflexivity.
Qed.

(** a palette of [n] colours, as a program that fills it correctly leaves it *)
Definition palette_of (p : pal) (n : Z) (d : list Z) : Prop :=
  pal_type (PalType p) /\ Palette p = Some d /\ PalSize p = zlen d /\ zlen d = n * colour_size (PalType p).
(** the colours of [q] are those of [p], as far as the type of [q] can hold them *)
Definition same_colours (p q : pal) (n : Z) (dp dq : list Z) : Prop :=
  forall i, 0 <= i < n -> colour (PalType q) dq i = held (PalType q) (colour (PalType p) dp i).

Lemma cs_cases : forall t, colour_size t = 3 \/ colour_size t = 4.
Proof. intros t. unfold colour_size. destruct ((t =? IL_PAL_RGB24) || (t =? IL_PAL_BGR24)); auto. Qed.

Lemma convert_core : forall alloc p Dst n d, allocator_ok alloc -> palette_of p n d -> pal_type Dst -> 0 < n -> 3 * n < 2 ^ 24 ->
  exists r e, iConvertPal alloc p Dst = Ok (r, e) /\
    (alloc 16 <> None -> alloc (n * colour_size Dst) <> None -> r <> None) /\
    forall q, r = Some q -> exists dq, palette_of q n dq /\ PalType q = Dst /\ same_colours p q n d dq /\ (bytes d -> bytes dq).
Proof.
  intros alloc p Dst n d HA (HT & HP & HS & HL) HD Hn Hb.
  assert (C1 := cs_cases (PalType p)). assert (C2 := cs_cases Dst).
  unfold iConvertPal. rewrite HP. assert (TN : (PalType p =? IL_PAL_NONE) = false).
  { unfold pal_type in HT. cbn [In] in HT. destruct HT as [<-|[<-|[<-|[<-|[<-|[<-|[]]]]]]]; reflexivity. }
  rewrite TN. replace (PalSize p =? 0) with false by nia. cbn [orb].
  destruct (alloc 16) as [x|]; [|do 2 eexists; split; [reflexivity|]; split; [congruence|discriminate]].
  destruct (plan_ok (PalType p) Dst n HT HD ltac:(lia) Hb) as (cells & EP & LC & HF & HN & HC). rewrite HS, HL, EP.
  destruct (alloc (n * colour_size Dst)) as [new|] eqn:EA; [|do 2 eexists; split; [reflexivity|]; split; [congruence|discriminate]].
  assert (LN := HA _ _ EA).
  assert (exists new', (match cells with
                        | None => memcpy new 0 d 0 (n * colour_size (PalType p))
                        | Some cs => stride2 (n * colour_size (PalType p)) (colour_size (PalType p)) (colour_size Dst) (fun i j => put_entry d i j cs) new
                        end) = Ok new' /\ zlen new' = n * colour_size Dst /\
     forall i o, 0 <= i < n -> 0 <= o < colour_size Dst ->
       geti new' (i * colour_size Dst + o) = cell d (i * colour_size (PalType p)) (nth (Z.to_nat o) (plan_cells (colour_size (PalType p)) cells) C255)) as (new' & -> & L' & G).
  { destruct cells as [cs|].
    - cbn [plan_cells] in *. apply put_all; auto; nia.
    - rewrite <- HN in * by reflexivity. rewrite memcpy_ok by nia. eexists. split; [reflexivity|].
      assert (E : splice new 0 (slice d 0 (n * colour_size (PalType p))) = d). { replace (n * colour_size (PalType p)) with (zlen d). rewrite slice_all. apply splice_full. lia. }
      rewrite E. split; [auto|]. intros i o Hi Ho. cbn [plan_cells]. 
      destruct C1 as [C|C]; rewrite C in *; cbn [Z.eqb Pos.eqb].
      + assert (O : o = 0 \/ o = 1 \/ o = 2) by lia. destruct O as [ -> | [ -> | -> ]]; reflexivity.
      + assert (O : o = 0 \/ o = 1 \/ o = 2 \/ o = 3) by lia. destruct O as [ -> | [ -> | [ -> | -> ]]]; reflexivity. }
  cbn [bind]. do 2 eexists. split; [reflexivity|]. split; [discriminate|]. intros q Hq. injection Hq as <-. exists new'. cbn [PalType Palette PalSize].
  split; [repeat split; auto|]. split; [reflexivity|]. split; [intros i Hi; cbn [PalType]; apply HC; intros o Ho; apply G; auto|].
  intros HB j Hj. rewrite L' in Hj. set (t := colour_size Dst) in *. assert (EJ : j = j / t * t + j mod t) by (rewrite Z.mul_comm; apply Z.div_mod; lia).
  assert (MJ : 0 <= j mod t < t) by (apply Z.mod_pos_bound; lia). assert (DJ : 0 <= j / t < n) by (split; [apply Z.div_pos; lia|apply Z.div_lt_upper_bound; lia]).
  rewrite EJ, G by auto. clear EJ G HC. assert (IN : In (nth (Z.to_nat (j mod t)) (plan_cells (colour_size (PalType p)) cells) C255) (plan_cells (colour_size (PalType p)) cells)) by (apply nth_In; unfold zlen in LC; lia).
  rewrite Forall_forall in HF. specialize (HF _ IN). destruct (nth _ _ _) as [k|]; cbn [cell]; [|lia]. apply HB.
  set (e := j / t) in *. set (cs := colour_size (PalType p)) in *. clearbody e cs. clear - HF DJ HL C1. nia.
Qed.

(** C61: for all palettes and all target types the conversion stays inside its buffers; it succeeds if there is
    memory, and the new palette has the same colours.  Partial: at most 2^24 / 3 colours, see below. *)
Theorem C61_convert_partial : forall alloc p Dst n d, allocator_ok alloc -> palette_of p n d -> pal_type Dst -> 0 < n -> 3 * n < 2 ^ 24 ->
  exists r e, iConvertPal alloc p Dst = Ok (r, e) /\
    (alloc 16 <> None -> alloc (n * colour_size Dst) <> None -> r <> None) /\
    forall q, r = Some q -> exists dq, palette_of q n dq /\ PalType q = Dst /\ same_colours p q n d dq.
Proof.
  intros alloc p Dst n d HA HP HD Hn Hb. destruct (convert_core alloc p Dst n d HA HP HD Hn Hb) as (r & e & E & H1 & H2).
  exists r, e. split; [exact E|]. split; [exact H1|]. intros q Hq. destruct (H2 q Hq) as (dq & A & B & C & _). eauto.
Qed.
Print Assumptions C61_convert_partial.

(** for the palette of the current image *)
Theorem C61_current_partial : forall alloc im Dst n d, allocator_ok alloc -> palette_of (Pal im) n d -> pal_type Dst -> 0 < n -> 3 * n < 2 ^ 24 ->
  alloc 16 <> None -> alloc (n * colour_size Dst) <> None ->
  exists im' d', ilConvertPal alloc im Dst = Ok (true, im', []) /\ im' = with_Pal im (Pal im') /\
    palette_of (Pal im') n d' /\ PalType (Pal im') = Dst /\ same_colours (Pal im) (Pal im') n d d'.
Proof.
  intros alloc im Dst n d HA HP HD Hn Hb A1 A2.
  destruct (C61_convert_partial alloc (Pal im) Dst n d HA HP HD Hn Hb) as (r & e & E & HR & HQ).
  destruct r as [q|]; [|exfalso; apply HR; auto]. destruct (HQ q eq_refl) as (dq & HPq & HTq & HC). clear HR HQ.
  assert (e = []) as ->.
  { revert E. unfold iConvertPal. destruct (Palette (Pal im)); [|discriminate]. destruct ((PalSize (Pal im) =? 0) || (PalType (Pal im) =? IL_PAL_NONE)); [discriminate|]. destruct (alloc 16); [|discriminate].
    destruct (pal_plan _ _ _) as [[[[sz s] t] cs]|]; [|discriminate]. destruct (alloc sz); [|discriminate]. match goal with |- bind ?m _ = _ -> _ => destruct m; cbn [bind]; [congruence|discriminate|discriminate] end. }
  assert (HP' := HP). destruct HP' as (HT & HPd & HS & HL). unfold ilConvertPal. rewrite HPd.
  assert (TN : (PalType (Pal im) =? IL_PAL_NONE) = false).
  { unfold pal_type in HT. cbn [In] in HT. destruct HT as [<-|[<-|[<-|[<-|[<-|[<-|[]]]]]]]; reflexivity. }
  assert (C1 := cs_cases (PalType (Pal im))). rewrite TN. replace (PalSize (Pal im) =? 0) with false by nia. cbn [orb]. rewrite E. cbn [bind].
  assert (HPq' := HPq). destruct HPq' as (HTq' & HPdq & HSq & HLq). rewrite HSq, HLq, HTq, HPdq.
  destruct (alloc (n * colour_size Dst)) as [new|] eqn:EA; [|congruence]. assert (LN := HA _ _ EA). rewrite HTq in HLq. assert (C2 := cs_cases Dst). rewrite memcpy_ok by nia. cbn [bind].
  assert (EE : splice new 0 (slice dq 0 (n * colour_size Dst)) = dq). { rewrite <- HLq. rewrite slice_all. apply splice_full. lia. }
  rewrite EE. exists (with_Pal im (mkPal (Some dq) (n * colour_size Dst) Dst)), dq. split; [reflexivity|]. split; [reflexivity|]. cbn [Pal with_Pal PalType].
  split; [|split; [reflexivity|]]. 
  - repeat split; cbn [PalType Palette PalSize]; auto.
  - intros i Hi. cbn [PalType]. rewrite <- HTq. apply (HC i Hi).
Qed.
Print Assumptions C61_current_partial.

(** two colours of type BGR32 meet the hypotheses *)
Definition ex_pal : pal := mkPal (Some [1; 2; 3; 9; 4; 5; 6; 9]) 8 IL_PAL_BGR32.
Example C61_case : palette_of ex_pal 2 [1; 2; 3; 9; 4; 5; 6; 9] /\ pal_type IL_PAL_RGBA32 /\
  iConvertPal ex_alloc ex_pal IL_PAL_RGBA32 = Ok (Some (mkPal (Some [3; 2; 1; 255; 6; 5; 4; 255]) 8 IL_PAL_RGBA32), []).
Proof.
  split; [|split].
  - unfold palette_of, pal_type. cbn. repeat split; auto 10.
  - unfold pal_type. cbn. auto 10.
  - vm_compute. reflexivity.
Qed.

(** ** Where it is false *)
Lemma for_ub : forall {S} (I : S -> Prop) (f : Z -> S -> res S) (k m : nat) lo s, (k < m)%nat -> I s ->
  (forall i s, lo <= i < lo + Z.of_nat k -> I s -> exists s', f i s = Ok s' /\ I s') -> (forall s, I s -> f (lo + Z.of_nat k) s = UB) -> for_ m lo f s = UB.
Proof.
  intros S I f k. induction k as [|k IH]; intros m lo s Hm Hs HI HU; (destruct m as [|m]; [lia|]); cbn [for_].
  - replace (lo + Z.of_nat 0) with lo in HU by lia. rewrite HU by auto. reflexivity.
  - destruct (HI lo s ltac:(lia) Hs) as (s' & -> & Hs'). cbn [bind]. apply IH; auto; [lia| |].
    + intros i s1 Hi H1. apply HI; auto; lia.
    + intros s1 H1. replace (lo + 1 + Z.of_nat k) with (lo + Z.of_nat (Datatypes.S k)) by lia. auto.
Qed.
Lemma loop_ub : forall {S} (I : S -> Prop) (f : Z -> S -> res S) lo m hi s, lo <= m < hi -> I s ->
  (forall i s, lo <= i < m -> I s -> exists s', f i s = Ok s' /\ I s') -> (forall s, I s -> f m s = UB) -> loop lo hi f s = UB.
Proof.
  intros S I f lo m hi s Hm Hs HI HU. unfold loop. apply (for_ub I f (Z.to_nat (m - lo))); auto; [lia| |].
  - intros i s1 Hi H1. apply HI; auto; lia.
  - intros s1 H1. replace (lo + Z.of_nat (Z.to_nat (m - lo))) with m by lia. auto.
Qed.

(** C61b: the size of the new palette is computed in single precision: with 5592407 colours of four bytes it is
    one byte too small, and the last byte is written behind the new palette. *)
Theorem C61_large_refuted : forall alloc d, allocator_ok alloc -> alloc 16 <> None -> alloc 16777220 <> None -> zlen d = 5592407 * 4 ->
  palette_of (mkPal (Some d) (zlen d) IL_PAL_BGR32) 5592407 d /\ iConvertPal alloc (mkPal (Some d) (zlen d) IL_PAL_BGR32) IL_PAL_RGB24 = UB.
Proof.
  intros alloc d HA A1 A2 HL. split; [unfold palette_of, pal_type; cbn [In PalType Palette PalSize]; repeat split; auto 10|].
  assert (E : size34 (5592407 * 4) = 16777220) by (vm_compute; reflexivity).
  unfold iConvertPal. cbn [Palette PalSize PalType]. replace (zlen d =? 0) with false by lia. change (IL_PAL_BGR32 =? IL_PAL_NONE) with false. cbn [orb].
  destruct (alloc 16) as [x|]; [|congruence]. rewrite HL. unfold pal_plan. cbn [Z.eqb Pos.eqb orb andb IL_PAL_RGB24 IL_PAL_BGR24 IL_PAL_RGB32 IL_PAL_RGBA32 IL_PAL_BGR32 IL_PAL_BGRA32]. cbv zeta. rewrite E.
  destruct (alloc 16777220) as [new|] eqn:EA; [|congruence]. assert (LN := HA _ _ EA). rewrite stride2_loop by lia.
  rewrite (loop_ub (fun d' => zlen d' = 16777220) _ 0 5592406); [reflexivity|lia|auto| |].
  - intros i s Hi Hs. destruct (put_entry_ok d (i * 4) swap (i * 3) s) as (d' & E' & L' & _); try (change (zlen swap) with 3); try lia.
    { unfold swap. repeat constructor; cbn; lia. }
    exists d'. split; [exact E'|lia].
  - intros s Hs. cbn [put_entry swap]. rewrite (u32_small (5592406 * 4 + 2)) by lia. rewrite (rd_ok d) by lia. cbn [bind]. rewrite (wr_ok s) by lia. cbn [bind].
    rewrite (u32_small (5592406 * 4 + 1)) by lia. rewrite (rd_ok d) by lia. cbn [bind]. rewrite (u32_small (5592406 * 3 + 1)) by lia. rewrite (wr_ok (upd s (5592406 * 3) _)) by (rewrite zlen_upd; lia). cbn [bind].
    rewrite (u32_small (5592406 * 4 + 0)) by lia. rewrite (rd_ok d) by lia. cbn [bind]. rewrite (u32_small (5592406 * 3 + 1 + 1)) by lia.
    rewrite wr_ub; [reflexivity|]. rewrite !zlen_upd by (rewrite ?zlen_upd; lia). lia.
Qed.
Print Assumptions C61_large_refuted.

(** C61c: a .plt file can give a palette whose size is not a multiple of the size of a colour; the
    conversion of such a palette reads behind it. *)
Theorem C61_odd_refuted : forall alloc im u, allocator_ok alloc -> alloc 4 <> None -> alloc 16 <> None -> zlen u = 4 ->
  exists im' r, ilLoadPltPal alloc im u (iSetInputLump [4; 0; 0; 0; 10; 20; 30; 40] 8) = Ok (true, im', r) /\
    ilConvertPal alloc im' IL_PAL_BGR24 = UB.
Proof.
  intros alloc im u HA A4 A16 Lu. unfold ilLoadPltPal, GetLittleUInt, get.
  assert (U : exists a b c e, u = [a; b; c; e]).
  { unfold zlen in Lu. do 5 (destruct u as [|? u]; cbn in Lu; try lia). eauto 10. }
  destruct U as (u1 & u2 & u3 & u4 & ->).
  change (iReadLump [u1; u2; u3; u4] 4 1 (iSetInputLump [4; 0; 0; 0; 10; 20; 30; 40] 8)) with (Ok (1, [4; 0; 0; 0], Rd [4; 0; 0; 0; 10; 20; 30; 40] 4 8 [])). cbn [bind].
  change (unle [4; 0; 0; 0]) with 4. change (4 =? 0) with false. cbv iota.
  destruct (alloc 4) as [p|] eqn:EA; [|congruence]. assert (LP := HA _ _ EA).
  assert (P : exists a b c e, p = [a; b; c; e]).
  { unfold zlen in LP. do 5 (destruct p as [|? p]; cbn in LP; try lia). eauto 10. }
  destruct P as (p1 & p2 & p3 & p4 & ->).
  change (iReadLump [p1; p2; p3; p4] 4 1 (Rd [4; 0; 0; 0; 10; 20; 30; 40] 4 8 [])) with (Ok (1, [10; 20; 30; 40], Rd [4; 0; 0; 0; 10; 20; 30; 40] 8 8 [])). cbn [bind].
  change (negb (1 =? 1)) with false. cbv iota. do 2 eexists. split; [reflexivity|].
  unfold ilConvertPal. cbn [Pal with_Pal Palette PalSize PalType]. change (IL_PAL_RGB24 =? IL_PAL_NONE) with false. change (4 =? 0) with false. cbn [orb].
  unfold iConvertPal. cbn [Palette PalSize PalType]. change (4 =? 0) with false. change (IL_PAL_RGB24 =? IL_PAL_NONE) with false. cbn [orb].
  destruct (alloc 16) as [x|]; [|congruence]. change (pal_plan IL_PAL_RGB24 IL_PAL_BGR24 4) with (Some (4, 3, 3, Some swap)). cbv iota beta. rewrite EA. reflexivity.
Qed.
Print Assumptions C61_odd_refuted.

(** C64: ilApplyPal refuses every image. *)
Theorem C64_apply_refuted : forall cur, ilApplyPal_check cur = Some (false, [IL_ILLEGAL_OPERATION]).
Proof.
  intros [im|]; [|reflexivity]. unfold ilApplyPal_check. replace (negb (Format im =? IL_BYTE) || negb (Format im =? IL_UNSIGNED_BYTE)) with true; [reflexivity|].
  unfold IL_BYTE, IL_UNSIGNED_BYTE. lia.
Qed.
Print Assumptions C64_apply_refuted.
