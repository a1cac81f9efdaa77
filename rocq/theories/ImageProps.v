(** Property theorems C10 (geometry of a freshly defined image) and C42 (replacing pixels). *)
From Coq Require Import ZArith List Lia Bool.
From Verif Require Import Base Enums Utility UtilityProofs Image ImageSpec.
Import ListNotations.
Open Scope Z_scope.

(** Size in bytes of one channel of each of the eight channel types of the public header. *)
Inductive channel_size : Z -> Z -> Prop :=
| cs_byte : channel_size IL_BYTE 1
| cs_ubyte : channel_size IL_UNSIGNED_BYTE 1
| cs_short : channel_size IL_SHORT 2
| cs_ushort : channel_size IL_UNSIGNED_SHORT 2
| cs_half : channel_size IL_HALF 2
| cs_int : channel_size IL_INT 4
| cs_uint : channel_size IL_UNSIGNED_INT 4
| cs_float : channel_size IL_FLOAT 4
| cs_double : channel_size IL_DOUBLE 8.

(** C10a: for every combination of dimensions, channel count and type whose exact size fits
    32 bits, a successful definition yields the requested geometry with exact products, and
    the pixel block has exactly that size (zero dimensions are taken as one). *)
Theorem C10_geometry_exact_partial : forall alloc old w h d bpp fmt typ bpc data blk,
  allocator_ok alloc -> 0 <= w -> 0 <= h -> 0 <= d -> 1 <= bpp < 256 -> channel_size typ bpc ->
  let w' := Z.max 1 w in let h' := Z.max 1 h in let d' := Z.max 1 d in
  exact_size w' h' d' bpp bpc < 2 ^ 32 ->
  alloc (exact_size w' h' d' bpp bpc) = Some blk ->
  (forall src, data = Some src -> exact_size w' h' d' bpp bpc <= zlen src) ->
  exists im buf, ilInitImage alloc old w h d bpp fmt typ data = Ok (true, im, []) /\
    Width im = w' /\ Height im = h' /\ Depth im = d' /\ Bpp im = bpp /\ Bpc im = bpc /\
    Format im = fmt /\ Type_ im = typ /\ Origin im = IL_ORIGIN_LOWER_LEFT /\
    SizeOfData im = exact_size w' h' d' bpp bpc /\ img_ok im buf /\
    (data = None -> buf = blk) /\
    (forall src, data = Some src -> forall i, 0 <= i < SizeOfData im -> geti buf i = geti src i).
Proof.
  intros alloc old w h d bpp fmt typ bpc data blk Ha Hw Hh Hd Hbpp Hcs w' h' d' Hsz Hal Hdata.
  assert (Hbpc : ilGetBpcType typ = bpc) by (inversion Hcs; reflexivity).
  assert (Hb : bpc = 1 \/ bpc = 2 \/ bpc = 4 \/ bpc = 8) by (inversion Hcs; auto).
  unfold ilInitImage. rewrite Hbpc. replace (bpc =? 0) with false by lia.
  assert (Hn : forall x, 0 <= x -> nz1 x = Z.max 1 x) by (intros x Hx; unfold nz1; destruct (x =? 0) eqn:E; lia).
  rewrite !Hn by assumption. fold w' h' d'. cbv zeta.
  assert (Hw1 : 1 <= w') by lia. assert (Hh1 : 1 <= h') by lia. assert (Hd1 : 1 <= d') by lia.
  clearbody w' h' d'. clear Hw Hh Hd Hn.
  unfold exact_size in *.
  set (bps := w' * bpp * bpc) in *.
  assert (0 < bps) by (unfold bps; apply Z.mul_pos_pos; [apply Z.mul_pos_pos|]; lia).
  set (plane := bps * h') in *.
  assert (bps <= plane) by (unfold plane; rewrite <- (Z.mul_1_r bps) at 1; apply Z.mul_le_mono_nonneg_l; lia).
  assert (plane <= plane * d') by (rewrite <- (Z.mul_1_r plane) at 1; apply Z.mul_le_mono_nonneg_l; lia).
  rewrite (u32_small bps) by lia. fold plane. rewrite (u32_small plane) by lia.
  rewrite (u32_small (plane * d')) by lia. rewrite Hal.
  assert (Hok : forall buf, zlen buf = plane * d' ->
    img_ok (mkImg w' h' d' bpp bpc bps (Some buf) (plane * d') plane fmt typ IL_ORIGIN_LOWER_LEFT
                  (mkPal None 0 IL_PAL_NONE) 0 0 0 0) buf).
  { intros buf Hl. unfold img_ok; cbn -[Z.pow Z.mul Z.lt]. repeat split; auto; try lia; unfold bps; ring. }
  destruct data as [src|].
  - specialize (Hdata src eq_refl).
    destruct (memcpy_spec blk 0 src 0 (plane * d')) as [r [E [L A]]]; try lia.
    { rewrite (Ha _ _ Hal). lia. }
    rewrite E. cbn [bind]. eexists _, r. split; [reflexivity|]. cbn -[img_ok].
    do 9 (split; [reflexivity|]). split; [|split].
    + apply Hok. rewrite L. apply Ha; auto.
    + discriminate.
    + intros s [= <-] i Hi. rewrite A by lia.
      replace ((0 <=? i) && (i <? 0 + plane * d')) with true by lia. f_equal. lia.
  - eexists _, blk. split; [reflexivity|]. cbn -[img_ok].
    do 9 (split; [reflexivity|]). split; [|split].
    + apply Hok. apply Ha; auto.
    + auto.
    + discriminate.
Qed.
Print Assumptions C10_geometry_exact_partial.

(** C10b: in every case (also when the product wraps) the pixel block allocated has exactly
    the size the image reports, and a failed call reports IL_OUT_OF_MEMORY or, without
    touching the image, IL_INVALID_PARAM. *)
Theorem C10_block_matches_reported_size : forall alloc old w h d bpp fmt typ data r im errs,
  allocator_ok alloc ->
  ilInitImage alloc old w h d bpp fmt typ data = Ok (r, im, errs) ->
  (r = true /\ errs = [] /\ exists buf, Data im = Some buf /\ zlen buf = SizeOfData im) \/
  (r = false /\ errs = [IL_OUT_OF_MEMORY] /\ Data im = None) \/
  (r = false /\ errs = [IL_INVALID_PARAM] /\ im = old /\ forall bpc, ~ channel_size typ bpc).
Proof.
  intros alloc old w h d bpp fmt typ data r im errs Ha E. unfold ilInitImage in E.
  destruct (ilGetBpcType typ =? 0) eqn:Eb.
  { inversion E; subst. right; right. repeat split; auto. intros bpc Hc.
    inversion Hc; subst; vm_compute in Eb; discriminate. }
  cbv zeta in E. destruct (alloc _) as [blk|] eqn:Eal.
  - left. destruct data as [src|].
    + apply bind_ok in E. destruct E as [b [Eb' E]]. inversion E; subst. repeat split; auto.
      exists b. split; auto. cbn. apply memcpy_inv in Eb'. destruct Eb' as (_ & _ & H3 & H4 & H5 & ->).
      rewrite zlen_splice; [apply Ha; auto|lia|]. rewrite zlen_slice; lia.
    + inversion E; subst. repeat split; auto. exists blk. split; [reflexivity|cbn; apply Ha; auto].
  - inversion E; subst. right; left. auto.
Qed.
Print Assumptions C10_block_matches_reported_size.

(** C10, finding: the products are computed in 32 bits.  A 65536 x 65536 RGBA image is
    "successfully" defined with a zero-byte pixel block: the unrestricted claim is false. *)
Theorem C10_geometry_wraps_refuted : exists alloc old w h d bpp fmt typ im,
  allocator_ok alloc /\
  ilInitImage alloc old w h d bpp fmt typ None = Ok (true, im, []) /\
  Width im = 65536 /\ Height im = 65536 /\ Depth im = 1 /\ Bpp im = 4 /\ Bpc im = 1 /\
  SizeOfData im = 0 /\ Data im = Some [].
Proof.
  exists (fun n => if (0 <=? n) && (n <? 1000) then Some (repeat 0 (Z.to_nat n)) else None),
    (mkImg 1 1 1 1 1 1 None 1 1 IL_LUMINANCE IL_UNSIGNED_BYTE IL_ORIGIN_LOWER_LEFT (mkPal None 0 IL_PAL_NONE) 0 0 0 0),
    65536, 65536, 1, 4, IL_RGBA, IL_UNSIGNED_BYTE.
  eexists. split.
  - intros n l. destruct ((0 <=? n) && (n <? 1000)) eqn:E; [|discriminate].
    intros [= <-]. rewrite zlen_repeat. lia.
  - vm_compute. repeat split; reflexivity.
Qed.
Print Assumptions C10_geometry_wraps_refuted.

(** A concrete, non-trivial case meeting the hypotheses of C10_geometry_exact_partial *)
Example C10_hyp_met :
  exists im buf, ilInitImage (fun n => Some (repeat 0 (Z.to_nat n)))
     (mkImg 1 1 1 1 1 1 None 1 1 0 0 0 (mkPal None 0 IL_PAL_NONE) 0 0 0 0)
     3 2 0 4 IL_RGBA IL_UNSIGNED_SHORT (Some (map Z.of_nat (seq 1 48))) = Ok (true, im, []) /\
   img_ok im buf /\ SizeOfData im = 48 /\ Bps im = 24 /\ buf = map Z.of_nat (seq 1 48).
Proof.
  eexists _, _. split; [vm_compute; reflexivity|].
  split; [repeat split; cbn; auto; try lia|]. repeat split; reflexivity.
Qed.

(** C42: ilSetData replaces the pixels by the first SizeOfData bytes supplied, and changes
    nothing else; with a NULL argument it changes nothing and reports IL_INVALID_PARAM. *)
Theorem C42_set_data : forall alloc im buf src,
  img_ok im buf -> SizeOfData im <= zlen src ->
  exists buf', ilTexSubImage_ alloc im (Some src) = Ok (true, with_Data im (Some buf'), []) /\
    img_ok (with_Data im (Some buf')) buf' /\
    forall i, 0 <= i < SizeOfData im -> geti buf' i = geti src i.
Proof.
  intros alloc im buf src Hok Hs. assert (Hok' := Hok).
  destruct Hok' as (HD & HW & HH & HDp & Hbpp & Hbpc & Hbps & Hpl & Hsz & H32 & Hlen).
  unfold ilTexSubImage_. rewrite HD.
  assert (0 <= zlen buf) by apply zlen_nonneg.
  destruct (memcpy_spec buf 0 src 0 (SizeOfData im)) as [r [E [L A]]]; try lia.
  rewrite E. cbn [bind]. exists r. split; auto. split.
  - unfold img_ok in *. cbn [with_Data Data Width Height Depth Bpp Bpc Bps SizeOfPlane SizeOfData].
    intuition; lia.
  - intros i Hi. rewrite A by lia.
    replace ((0 <=? i) && (i <? 0 + SizeOfData im)) with true by lia. f_equal; lia.
Qed.
Print Assumptions C42_set_data.

Theorem C42_set_data_null : forall alloc im,
  ilTexSubImage_ alloc im None = Ok (false, im, [IL_INVALID_PARAM]).
Proof. reflexivity. Qed.
Print Assumptions C42_set_data_null.

(** The documentation asks the caller for SizeOfData bytes; a shorter buffer is read beyond
    its end (the call has no way to know its size). *)
Theorem C42_set_data_short_source_ub : forall alloc im buf src,
  img_ok im buf -> zlen src < SizeOfData im -> ilTexSubImage_ alloc im (Some src) = UB.
Proof.
  intros alloc im buf src Hok Hs. destruct Hok as (HD & _ & _ & _ & _ & _ & _ & _ & _ & _ & Hlen).
  unfold ilTexSubImage_. rewrite HD. unfold memcpy.
  replace (inb (zlen src) 0 (SizeOfData im)) with false by (symmetry; apply inb_false; lia).
  rewrite andb_false_r. reflexivity.
Qed.
Print Assumptions C42_set_data_short_source_ub.
