(** Code that never leaves its memory: a predicate on results and rules for it. *)
From Coq Require Import ZArith List Lia Bool.
From Verif Require Import Base Slices Elem Enums Utility Lump LumpSpec LumpProofs LumpProps Channels Endian EndianProps Raw RawProps BmpSafe.
Import ListNotations.
Open Scope Z_scope.

(** [m] does not go wrong and its result, if any, satisfies [P] *)
Definition safe {A} (P : A -> Prop) (m : res A) : Prop := match m with Ok x => P x | UB => False | Fuel => True end.
Lemma safe_bind : forall A B (P : A -> Prop) (Q : B -> Prop) m k, safe P m -> (forall x, P x -> safe Q (k x)) -> safe Q (bind m k).
Proof. intros A B P Q [x| |] k H HK; cbn in *; auto. Qed.
Lemma safe_for : forall S (I : S -> Prop) body n i s, I s -> (forall k s, i <= k < i + Z.of_nat n -> I s -> safe I (body k s)) -> safe I (for_ n i body s).
Proof.
  intros S I body. induction n as [|n IH]; intros i s H HB; cbn [for_]; [exact H|]. apply (safe_bind _ _ I); [apply HB; auto; lia|]. intros x Hx. apply IH; auto. intros k s' Hk. apply HB. lia.
Qed.
Lemma safe_loop : forall S (I : S -> Prop) body lo hi s, I s -> (forall k s, lo <= k < hi -> I s -> safe I (body k s)) -> safe I (loop lo hi body s).
Proof. intros S I body lo hi s H HB. unfold loop. apply safe_for; auto. intros k s' Hk. apply HB. lia. Qed.
Lemma safe_stride : forall S (I : S -> Prop) body lo hi st s, 0 <= lo -> I s -> (forall k s, 0 <= k < hi -> I s -> safe I (body k s)) -> safe I (stride lo hi st body s).
Proof.
  intros S I body lo hi st s Hlo H HB. unfold stride. revert lo s Hlo H. generalize (Z.to_nat hi). induction n as [|n IH]; intros lo s Hlo H; cbn [stride_]; destruct (lo <? hi) eqn:E; cbn [safe]; auto.
  apply (safe_bind _ _ I); [apply HB; auto; lia|]. intros x Hx. apply IH; auto. assert (X := u32_range (lo + st)). lia.
Qed.
Lemma get_safe : forall F n stk r, 0 < zlen F < 4294967295 -> on F r -> 0 < n <= 4 -> zlen stk = n -> bytes F -> bytes stk -> safe (fun x => on F (snd x) /\ 0 <= fst x < 256 ^ n) (get n stk r).
Proof.
  intros F n stk r Hm Hr Hn Hs BF BS. unfold get. destruct (read_pos F stk n 1 r) as (c & b & r' & -> & O & L & B & _); auto; try lia. cbn [bind safe fst snd]. split; [auto|]. rewrite <- Hs, <- L. apply unle_range. apply bytes_Forall. auto.
Qed.
Lemma getc_safe : forall F r, 0 < zlen F < 4294967295 -> on F r -> safe (fun x => on F (snd x) /\ rpos (snd x) = (if rpos r <? zlen F then rpos r + 1 else zlen F - 1) /\ (rpos r < zlen F -> fst x = geti F (rpos r))) (iGetcLump r).
Proof.
  intros F r Hm Hr. rewrite (C21_getc F r Hm Hr). destruct Hr as (H1 & H2 & H3). destruct (rpos r <? zlen F) eqn:E; cbn [safe fst snd]; unfold on; cbn [rlump Lump.rsize rpos]; repeat match goal with |- _ /\ _ => split end; auto; lia.
Qed.
Lemma read_safe : forall F b s n r, 0 < zlen F < 4294967295 -> on F r -> 0 < s -> 0 <= n -> s * n < 4294967296 -> s * n <= zlen b -> safe (fun x => on F (snd x) /\ zlen (snd (fst x)) = zlen b) (iReadLump b s n r).
Proof. intros F b s n r Hm Hr Hs Hn Hw Hb. destruct (read_pos F b s n r Hm Hr Hs Hn Hw Hb) as (c & b' & r' & -> & O & L & _). split; auto. Qed.
