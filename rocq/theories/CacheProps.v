(** C47: the read cache is invisible.  Specification, proofs and counterexamples. *)
From Coq Require Import ZArith List Lia Bool.
From Verif Require Import Base Slices Elem Enums Lump LumpSpec LumpProofs LumpProps Cache.
Import ListNotations.
Open Scope Z_scope.

(** ** Specification: reading a file [f] with a plain cursor.

    [None] marks requests outside the property: reading past the end, a buffer shorter than claimed,
    seeking or asking for the position while the cache is on, or turning the cache on twice. *)
Definition plain (f : list Z) (o : fop) (pos : Z) (cached : bool) : option (rans * Z * bool) :=
  match o with
  | FGetc => if pos <? zlen f then Some ((geti f pos, []), pos + 1, cached) else None
  | FRead b s n =>
      if (0 <? s) && (0 <=? n) && (s * n <=? zlen b) && (pos + s * n <=? zlen f)
      then Some ((n, rest f pos (s * n) ++ skipn (Z.to_nat (s * n)) b), pos + s * n, cached) else None
  | FSeek off m =>
      let t := if m =? 0 then off else if m =? 1 then pos + off else zlen f + off in
      if negb cached && (0 <=? m) && (m <=? 2) && (0 <=? t) && (t <=? zlen f)
      then Some ((0, []), t, false) else None
  | FTell => if cached then None else Some ((pos, []), pos, false)
  | FPre n => if negb cached && (0 <=? n) && (n <? 2147483648) then Some ((1, []), pos, true) else None
  | FUn => Some ((0, []), pos, false)
  end.
Fixpoint plain_run (f : list Z) (os : list fop) (pos : Z) (cached : bool) : option (list rans * Z) :=
  match os with
  | [] => Some ([], pos)
  | o :: os =>
      match plain f o pos cached with
      | Some (a, pos, cached) =>
          match plain_run f os pos cached with Some (l, p) => Some (a :: l, p) | None => None end
      | None => None
      end
  end.

(** ** Invariant *)

Definition inv_cache (f : list Z) (r : freader) (pos : Z) : Prop :=
  file r = f /\ fstart r = 0 /\ usecache r = true /\ 0 <= cstart r /\ 1 <= csize r < 2147483648 /\
  0 <= cpos r <= csize r /\ pos = cstart r + cpos r /\ pos <= zlen f /\
  cache r = slice f (cstart r) (Z.min (csize r) (zlen f - cstart r)) /\
  fpos r = cstart r + Z.min (csize r) (zlen f - cstart r).

Definition inv (f : list Z) (r : freader) (pos : Z) (cached : bool) : Prop :=
  if cached then inv_cache f r pos /\ cbytes r = cpos r
  else file r = f /\ fstart r = 0 /\ usecache r = false /\ fpos r = pos /\ 0 <= pos <= zlen f.

Lemma precache_inv : forall f r n, file r = f -> fstart r = 0 -> 0 <= fpos r <= zlen f -> 0 <= n < 2147483648 ->
  inv_cache f (iPreCache n r) (fpos r) /\ cbytes (iPreCache n r) = 0 /\ cpos (iPreCache n r) = 0 /\
  csize (iPreCache n r) = if n =? 0 then 1 else n.
Proof.
  intros f r n H1 H2 H3 Hn. unfold inv_cache, iPreCache. cbn [file fstart usecache cache csize cpos cstart cbytes fpos].
  set (m := if n =? 0 then 1 else n). assert (1 <= m < 2147483648) by (unfold m; destruct (n =? 0) eqn:E; lia).
  rewrite H1. replace (Z.max 0 (Z.min m (zlen f - fpos r))) with (Z.min m (zlen f - fpos r)) by lia.
  repeat split; auto; lia.
Qed.

Lemma refill : forall f r pos, inv_cache f r pos -> cpos r = csize r ->
  inv_cache f (iPreCache (csize r) r) pos /\ cpos (iPreCache (csize r) r) = 0 /\ cbytes (iPreCache (csize r) r) = 0.
Proof.
  intros f r pos (H1 & H2 & H3 & H4 & H5 & H6 & H7 & H8 & H9 & H10) E.
  assert (fpos r = pos) by lia.
  destruct (precache_inv f r (csize r)) as (A & B & C & _); auto; try lia.
  rewrite H in A. auto.
Qed.

Lemma zlen_cache : forall f r pos, inv_cache f r pos -> zlen (cache r) = Z.min (csize r) (zlen f - cstart r) /\ cpos r <= zlen (cache r).
Proof.
  intros f r pos (H1 & H2 & H3 & H4 & H5 & H6 & H7 & H8 & H9 & H10). rewrite H9, zlen_slice by lia. lia.
Qed.

Lemma cache_slice : forall f r pos n, inv_cache f r pos -> 0 <= n -> cpos r + n <= zlen (cache r) ->
  slice (cache r) (cpos r) n = slice f pos n.
Proof.
  intros f r pos n I Hn Hl. destruct (zlen_cache _ _ _ I) as [Z1 Z2].
  destruct I as (H1 & H2 & H3 & H4 & H5 & H6 & H7 & H8 & H9 & H10).
  rewrite H9, H7. apply Elem.slice_slice; lia.
Qed.

Lemma advance : forall f r pos n b, inv_cache f r pos -> 0 <= n -> cpos r + n <= zlen (cache r) ->
  inv_cache f (set_cpos r (cpos r + n) b) (pos + n).
Proof.
  intros f r pos n b I Hn Hl. destruct (zlen_cache _ _ _ I) as [Z1 Z2].
  destruct I as (H1 & H2 & H3 & H4 & H5 & H6 & H7 & H8 & H9 & H10).
  unfold inv_cache, set_cpos. cbn [file fstart usecache cache csize cpos cstart cbytes fpos].
  repeat split; auto; lia.
Qed.

Lemma splice_splice_adj : forall b T x y, 0 <= T -> T + zlen x + zlen y <= zlen b ->
  splice (splice b T x) (T + zlen x) y = splice b T (x ++ y).
Proof.
  intros b T x y H1 H2. assert (0 <= zlen x) by auto. assert (0 <= zlen y) by auto.
  assert (L : zlen (x ++ y) = zlen x + zlen y) by apply zlen_app.
  assert (L1 : zlen (splice b T x) = zlen b) by (apply zlen_splice; lia).
  apply list_ext; [rewrite !zlen_splice; lia|]. intros j Hj. rewrite zlen_splice in Hj by lia. rewrite !geti_splice by lia.
  rewrite L. destruct ((T + zlen x <=? j) && (j <? T + zlen x + zlen y)) eqn:E1.
  - replace ((T <=? j) && (j <? T + (zlen x + zlen y))) with true by lia. rewrite geti_app by lia.
    replace (j - T <? zlen x) with false by lia. f_equal. lia.
  - destruct ((T <=? j) && (j <? T + zlen x)) eqn:E2.
    + replace ((T <=? j) && (j <? T + (zlen x + zlen y))) with true by lia. rewrite geti_app by lia.
      replace (j - T <? zlen x) with true by lia. reflexivity.
    + replace ((T <=? j) && (j <? T + (zlen x + zlen y))) with false by lia. reflexivity.
Qed.

Lemma fill_ok : forall fuel f b B T r pos, inv_cache f r pos -> 0 <= T <= B -> B < 2147483648 -> B <= zlen b ->
  pos + (B - T) <= zlen f -> (B - T) + (if cpos r <? csize r then 0 else 1) <= Z.of_nat fuel ->
  exists r', fill_loop fuel b B T r = Ok (splice b T (slice f pos (B - T)), B, r') /\ inv_cache f r' (pos + (B - T)).
Proof.
  induction fuel as [|fuel IH]; intros f b B T r pos I HT HB Hb Hp Hf; cbn [fill_loop].
  - destruct (T <? B) eqn:E; [destruct (cpos r <? csize r); lia|]. exists r.
    replace (B - T) with 0 by lia. rewrite slice_0, splice_nil by lia. replace T with B by lia. rewrite Z.add_0_r. auto.
  - destruct (T <? B) eqn:E.
    2:{ exists r. replace (B - T) with 0 by lia. rewrite slice_0, splice_nil by lia. replace T with B by lia. rewrite Z.add_0_r. auto. }
    destruct (zlen_cache _ _ _ I) as [Z1 Z2]. assert (I' := I).
    destruct I' as (H1 & H2 & H3 & H4 & H5 & H6 & H7 & H8 & H9 & H10).
    rewrite (u32_small (T + csize r - cpos r)) by lia.
    set (c := if B <? T + csize r - cpos r then u32 (B - T) else u32 (csize r - cpos r)).
    assert (Hc : c = Z.min (B - T) (csize r - cpos r)).
    { unfold c. destruct (B <? _) eqn:E2; rewrite u32_small by lia; lia. }
    clearbody c. assert (Hc2 : cpos r + c <= zlen (cache r)) by lia.
    rewrite memcpy_ok by lia. cbn [bind].
    rewrite (cache_slice f r pos c) by (auto; lia).
    rewrite (u32_small (T + c)) by lia. rewrite (u32_small (cpos r + c)) by lia.
    assert (A := advance f r pos c (cbytes r) I ltac:(lia) Hc2).
    assert (Lc : zlen (slice f pos c) = c) by (apply zlen_slice; lia).
    assert (Lb : zlen (splice b T (slice f pos c)) = zlen b) by (apply zlen_splice; lia).
    assert (G : forall r2, inv_cache f r2 (pos + c) -> (B - (T + c)) + (if cpos r2 <? csize r2 then 0 else 1) <= Z.of_nat fuel ->
      exists r', fill_loop fuel (splice b T (slice f pos c)) B (T + c) r2 = Ok (splice b T (slice f pos (B - T)), B, r') /\
                 inv_cache f r' (pos + (B - T))).
    { intros r2 I2 F2. destruct (IH f (splice b T (slice f pos c)) B (T + c) r2 (pos + c)) as (r' & E' & I3); auto; try lia.
      exists r'. replace (pos + (B - T)) with (pos + c + (B - (T + c))) by ring. split; auto.
      rewrite E'. do 3 f_equal. replace (T + c) with (T + zlen (slice f pos c)) at 1 by lia.
      rewrite splice_splice_adj; [|lia|rewrite (zlen_slice f (pos + c)) by lia; lia].
      f_equal. rewrite <- slice_split by lia. f_equal. lia. }
    cbn [csize set_cpos]. destruct (T + c <? B) eqn:E3.
    + destruct (refill f _ (pos + c) A) as (R1 & R2 & R3); [cbn [cpos csize set_cpos]; lia|].
      cbn [csize set_cpos] in R1, R2, R3. apply G; auto. rewrite R2.
      destruct R1 as (_ & _ & _ & _ & Q & _). replace (0 <? _) with true by lia.
      destruct (cpos r <? csize r) eqn:E4; lia.
    + destruct fuel as [|fuel'].
      * (* no fuel left is fine: T + c = B *)
        cbn [fill_loop]. rewrite E3. exists (set_cpos r (cpos r + c) (cbytes r)).
        replace (B - T) with c by lia. replace (T + c) with B by lia. auto.
      * cbn [fill_loop]. rewrite E3. exists (set_cpos r (cpos r + c) (cbytes r)).
        replace (B - T) with c by lia. replace (T + c) with B by lia. auto.
Qed.

Lemma rest_app_splice : forall b f pos n, 0 <= n <= zlen b -> 0 <= pos -> pos + n <= zlen f ->
  splice b 0 (slice f pos n) = rest f pos n ++ skipn (Z.to_nat n) b.
Proof.
  intros b f pos n H1 H2 H3. unfold splice. cbn [Z.to_nat firstn app Nat.add]. change (rest f pos n) with (slice f pos n). f_equal. f_equal.
  assert (L : zlen (slice f pos n) = n) by (apply zlen_slice; lia). unfold zlen in L. lia.
Qed.

Lemma step_inv : forall f o r pos cached a pos' cached', zlen f < 2147483648 -> inv f r pos cached ->
  plain f o pos cached = Some (a, pos', cached') -> exists r', fstep o r = Ok (a, r') /\ inv f r' pos' cached' /\ ferr r' = ferr r.
Proof.
  intros f o r pos cached a pos' cached' Hf I P.
  assert (Hpos : 0 <= pos <= zlen f).
  { destruct cached; [destruct I as [(H1 & H2 & H3 & H4 & H5 & H6 & H7 & H8 & _) _]|destruct I as (_ & _ & _ & _ & H)]; lia. }
  destruct o as [|b s n|off m| |n|]; cbn [plain fstep] in *.
  - destruct (pos <? zlen f) eqn:E; [|discriminate]. injection P as <- <- <-. unfold iGetcFile. destruct cached.
    + destruct I as [I C]. assert (U : usecache r = true) by (destruct I as (_ & _ & H & _); auto). rewrite U.
      assert (G : forall r1, inv_cache f r1 pos -> cbytes r1 = cpos r1 -> cpos r1 < csize r1 -> ferr r1 = ferr r ->
        exists r', (let! (c, r0) := (let! c := rd (cache r1) (cpos r1) in
           Ok (c, Fr (file r1) (fpos r1) (fstart r1) true (cache r1) (csize r1) (u32 (cpos r1 + 1)) (cstart r1) (u32 (cbytes r1 + 1)) (ferr r1)))
           in Ok ((c, @nil Z), r0)) = Ok ((geti f pos, @nil Z), r') /\ inv f r' (pos + 1) true /\ ferr r' = ferr r).
      { intros r1 I1 C1 L1 F1. destruct (zlen_cache _ _ _ I1) as [Z1 Z2]. assert (I2 := I1).
        destruct I2 as (H1 & H2 & H3 & H4 & H5 & H6 & H7 & H8 & H9 & H10).
        assert (K : cpos r1 + 1 <= zlen (cache r1)) by lia.
        rewrite rd_ok by lia. cbn [bind]. eexists. split; [|split].
        - do 3 f_equal. rewrite H9, geti_slice by lia. f_equal. lia.
        - cbn [inv]. rewrite !u32_small by lia. rewrite C1. split; [|reflexivity].
          assert (AA := advance f r1 pos 1 (cpos r1 + 1) I1 ltac:(lia) K). unfold set_cpos in AA. rewrite H3 in AA. exact AA.
        - exact F1. }
      destruct (csize r <=? cpos r) eqn:E2.
      * assert (E3 : cpos r = csize r) by (destruct I as (_ & _ & _ & _ & _ & H & _); lia).
        destruct (refill f r pos I E3) as (R1 & R2 & R3). apply G; auto; try lia.
        rewrite R2. destruct R1 as (_ & _ & _ & _ & H & _). lia.
      * apply G; auto. lia.
    + destruct I as (H1 & H2 & H3 & H4 & H5). rewrite H3, H4, H1, E. rewrite rd_ok by lia. cbn [bind].
      eexists. split; [reflexivity|]. split; [|reflexivity]. cbn. repeat split; auto; lia.
  - destruct (_ && _) eqn:E in P; [|discriminate]. injection P as <- <- <-.
    assert (0 <= s * n) by (apply Z.mul_nonneg_nonneg; lia).
    assert (ND : s * n / s = n) by (rewrite Z.mul_comm, Z.div_mul; lia).
    unfold iReadFile. rewrite (u32_small (s * n)) by lia. destruct cached.
    + destruct I as [I C]. assert (U : usecache r = true) by (destruct I as (_ & _ & X & _); auto). rewrite U. cbn [negb].
      destruct (zlen_cache _ _ _ I) as [Z1 Z2]. assert (I2 := I).
      destruct I2 as (H1 & H2 & H3 & H4 & H5 & H6 & H7 & H8 & H9 & H10).
      rewrite (u32_small (csize r - cpos r)) by lia. destruct (s * n <? csize r - cpos r) eqn:E2.
      * rewrite memcpy_ok by lia. cbn [bind]. replace (s =? 0) with false by lia. rewrite ND.
        rewrite (cache_slice f r pos (s * n)) by (auto; lia). eexists. split; [|split].
        -- rewrite rest_app_splice by lia. reflexivity.
        -- cbn [inv]. rewrite C. rewrite !(u32_small (cpos r + _)) by lia. split; [apply advance; auto; lia|reflexivity].
        -- reflexivity.
      * destruct (fill_ok (Z.to_nat (s * n) + 2) f b (s * n) 0 r pos) as (r' & EF & I'); auto; try lia.
        { destruct (cpos r <? csize r); lia. }
        rewrite EF. cbn [bind]. rewrite Z.sub_0_r in *. replace (s =? 0) with false by lia. rewrite ND, Z.eqb_refl.
        eexists. split; [|split].
        -- rewrite rest_app_splice by lia. reflexivity.
        -- cbn [inv]. split; [|reflexivity]. destruct I' as (J1 & J2 & J3 & J4 & J5 & J6 & J7 & J8 & J9 & J10).
           unfold inv_cache, set_cpos. cbn [file fstart usecache cache csize cpos cstart cbytes fpos]. repeat split; auto; lia.
        -- cbn. (* fill_loop keeps the errors *)
           assert (FE : forall fuel b B T r x, fill_loop fuel b B T r = Ok x -> ferr (snd x) = ferr r).
           { clear. induction fuel as [|fuel IH]; intros b B T r x; cbn [fill_loop]; (destruct (T <? B); [|intros X; injection X as <-; reflexivity]); [discriminate|].
             intros X. apply bind_ok in X. destruct X as (b' & _ & X). apply IH in X. rewrite X. destruct (_ <? B); reflexivity. }
           apply FE in EF. exact EF.
    + destruct I as (H1 & H2 & H3 & H4 & H5). rewrite H3. cbn [negb]. unfold fread. rewrite H4, H1.
      replace (Z.max 0 (Z.min (s * n) (zlen f - pos))) with (s * n) by lia.
      rewrite memcpy_ok by lia. cbn [bind]. replace (s =? 0) with false by lia. rewrite ND, Z.eqb_refl.
      eexists. split; [|split].
      * rewrite rest_app_splice by lia. reflexivity.
      * cbn. repeat split; auto; lia.
      * reflexivity.
  - destruct (_ && _) eqn:E in P; [|discriminate]. injection P as <- <- <-. destruct cached; [cbn in E; discriminate|].
    destruct I as (H1 & H2 & H3 & H4 & H5). unfold iSeekRFile, IL_SEEK_SET, IL_SEEK_CUR, IL_SEEK_END.
    rewrite H1, H2, H4. cbn [negb andb] in E.
    set (t := if m =? 0 then off else if m =? 1 then pos + off else zlen f + off) in *.
    assert (TT : (if m =? 0 then (if m =? 0 then i32 (off + 0) else off) else if m =? 1 then pos + (if m =? 0 then i32 (off + 0) else off) else zlen f + (if m =? 0 then i32 (off + 0) else off)) = t).
    { unfold t in *. destruct (m =? 0) eqn:M0; [rewrite i32_small; lia|reflexivity]. }
    rewrite TT. replace ((0 <=? t) && _) with true by lia. eexists. split; [reflexivity|]. split; [|reflexivity].
    cbn. repeat split; auto; lia.
  - destruct cached; [discriminate|]. injection P as <- <- <-. destruct I as (H1 & H2 & H3 & H4 & H5).
    exists r. unfold iTellRFile. rewrite H4. repeat split; auto; lia.
  - destruct (_ && _) eqn:E in P; [|discriminate]. injection P as <- <- <-. destruct cached; [cbn in E; discriminate|].
    destruct I as (H1 & H2 & H3 & H4 & H5). eexists. split; [reflexivity|]. split; [|reflexivity].
    destruct (precache_inv f r n) as (A & B & C & _); auto; try lia.
    cbn [inv]. rewrite H4 in A. split; [exact A|lia].
  - injection P as <- <- <-. eexists. split; [reflexivity|]. unfold iUnCache. destruct cached.
    + destruct I as [(H1 & H2 & H3 & H4 & H5 & H6 & H7 & H8 & H9 & H10) C]. rewrite H3.
      unfold iSeekRFile, IL_SEEK_SET. cbn [fstart fpos file Z.eqb cstart cbytes]. rewrite H2, C, Z.add_0_r.
      rewrite u32_small by lia. rewrite (i32_small (cstart r + cpos r)) by lia. rewrite i32_small by lia.
      replace (0 <=? cstart r + cpos r) with true by lia. cbn. repeat split; auto; lia.
    + destruct I as (H1 & H2 & H3 & H4 & H5). rewrite H3. cbn. repeat split; auto; lia.
Qed.

(** Any history of reads with the cache switched on and off in between gives the answers of the plain
    cursor, without an error, and leaves the file at the plain cursor's position once the cache is
    off.  The file must have been opened at its beginning.
    Missing from C47: files opened in the middle ([C47_start_refuted]), reading past the end
    ([C47_eof_refuted]), and switching the cache on twice ([C47_twice_refuted]). *)
Theorem C47_cache_partial : forall f os l pos, zlen f < 2147483648 -> plain_run f os 0 false = Some (l, pos) ->
  exists r, frun os (iSetInputFile f 0) = Ok (l, r) /\ ferr r = [] /\ fpos (iUnCache r) = pos.
Proof.
  intros f os l pos Hf P.
  assert (G : forall os r p c l q, inv f r p c -> plain_run f os p c = Some (l, q) ->
    exists r' c', frun os r = Ok (l, r') /\ ferr r' = ferr r /\ inv f r' q c').
  { clear P os l pos. induction os as [|o os IH]; intros r p c l q I P; cbn [plain_run frun] in *.
    - injection P as <- <-. eauto.
    - destruct (plain f o p c) as [[[a p'] c']|] eqn:E; [|discriminate].
      destruct (plain_run f os p' c') as [[l' q']|] eqn:E2; [|discriminate]. injection P as <- <-.
      destruct (step_inv f o r p c a p' c' Hf I E) as (r' & -> & I' & F). cbn [bind].
      destruct (IH r' p' c' l' q' I' E2) as (r'' & c'' & -> & F' & I''). cbn [bind].
      exists r'', c''. rewrite F'. auto. }
  destruct (G os (iSetInputFile f 0) 0 false l pos) as (r & c & E & F & I); auto.
  { cbn. pose proof (zlen_nonneg _ f). repeat split; auto; lia. }
  exists r. split; auto. split; [exact F|].
  destruct (step_inv f FUn r pos c (0, []) pos false Hf I eq_refl) as (r' & E' & I' & _).
  injection E' as <-. destruct I' as (_ & _ & _ & H & _). exact H.
Qed.

(** A file opened at position [p] > 0: switching the cache on and off moves the cursor by [p]. *)
Theorem C47_start_refuted : forall f p n, 0 < p -> 2 * p <= zlen f -> zlen f < 2147483648 -> 0 < n < 2147483648 ->
  exists r, frun [FPre n; FUn] (iSetInputFile f p) = Ok ([(1, []); (0, [])], r) /\ fpos r = 2 * p.
Proof.
  intros f p n Hp Hl Hf Hn. eexists. split; [reflexivity|]. unfold iSetInputFile, iUnCache, iPreCache, iSeekRFile, IL_SEEK_SET.
  cbn [usecache cstart cbytes fstart fpos file Z.eqb]. rewrite Z.add_0_r, u32_small by lia. rewrite (i32_small p) by lia.
  rewrite i32_small by lia. replace (0 <=? p + p) with true by lia. cbn [orb andb snd fpos]. ring.
Qed.

(** Reading the character after the last one: IL_EOF without the cache, uninitialised memory with it. *)
Theorem C47_eof_refuted : forall f, zlen f < 2147483646 ->
  frun [FGetc] (Fr f (zlen f) 0 false [] 0 0 0 0 []) = Ok ([(IL_EOF, [])], raise IL_FILE_READ_ERROR (Fr f (zlen f) 0 false [] 0 0 0 0 [])) /\
  frun [FPre 1; FGetc] (Fr f (zlen f) 0 false [] 0 0 0 0 []) = UB.
Proof.
  intros f Hf. split.
  - cbn [frun fstep]. unfold iGetcFile. cbn [usecache fpos file]. rewrite Z.ltb_irrefl. reflexivity.
  - cbn [frun fstep bind]. unfold iGetcFile, iPreCache. cbn [usecache fpos file Z.eqb csize cpos cache Z.leb Z.compare].
    replace (Z.max 0 (Z.min 1 (zlen f - zlen f))) with 0 by lia. rewrite slice_0, rd_ub by (cbn; lia). reflexivity.
Qed.

(** Switching the cache on while it is on loses the bytes cached but not yet read. *)
Theorem C47_twice_refuted : forall f n, 0 < n -> n < zlen f -> zlen f < 2147483648 ->
  exists r, frun [FPre n; FPre n; FGetc] (iSetInputFile f 0) = Ok ([(1, []); (1, []); (geti f n, [])], r).
Proof.
  intros f n H1 H2 H3. cbn [frun fstep bind]. unfold iSetInputFile. set (r0 := Fr _ _ _ _ _ _ _ _ _ _).
  destruct (precache_inv f r0 n) as ((A1 & A2 & _) & _ & _ & _); auto; try (cbn; lia).
  assert (A3 : fpos (iPreCache n r0) = n).
  { unfold iPreCache, r0. cbn [fpos file]. replace (n =? 0) with false by lia. lia. }
  destruct (precache_inv f (iPreCache n r0) n) as (B1 & B2 & B3 & B4); auto; try lia.
  rewrite A3 in B1. set (r2 := iPreCache n (iPreCache n r0)) in *.
  assert (I : inv f r2 n true) by (split; [exact B1|lia]).
  destruct (step_inv f FGetc r2 n true (geti f n, []) (n + 1) true H3 I) as (r & E & _).
  { cbn. replace (n <? zlen f) with true by lia. reflexivity. }
  cbn [fstep] in E. apply bind_ok in E. destruct E as ([c r'] & -> & E). cbn [bind]. injection E as -> ->. eauto.
Qed.

Example C47_ex : exists l pos, plain_run [1;2;3;4;5;6;7;8;9] [FGetc; FPre 2; FGetc; FRead [0;0;0;0;0] 1 4; FGetc; FUn; FTell; FGetc; FSeek 1 0; FPre 0; FRead [0;0] 2 1] 0 false = Some (l, pos)
  /\ l = [(1,[]); (1,[]); (2,[]); (4,[3;4;5;6;0]); (7,[]); (0,[]); (7,[]); (8,[]); (0,[]); (1,[]); (1,[2;3])] /\ pos = 3.
Proof. do 2 eexists. repeat split; reflexivity. Qed.

Print Assumptions C47_cache_partial.
Print Assumptions C47_start_refuted.
Print Assumptions C47_eof_refuted.
Print Assumptions C47_twice_refuted.
