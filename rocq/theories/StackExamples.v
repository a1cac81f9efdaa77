(** Concrete histories for the theorems of StackProps.v, computed once. *)
From Coq Require Import ZArith List Bool Lia.
From Verif Require Import Base Enums Utility Stack StackWf StackInit StackSpec.
Import ListNotations.
Open Scope Z_scope.

(** * Wrong histories, computed.  [A0]: malloc never fails *)
Definition A0 : oracle := fun w t n => Some (match w with WBytes => repeat 205 (Z.to_nat n) | _ => [] end).
Definition out (r : res (list (list Z) * st)) : res (list (list Z)) :=
  match r with Ok (rs, _) => Ok rs | UB => UB | Fuel => Fuel end.
Fixpoint upto (n : nat) : list Z := match n with O => [] | S n => Z.of_nat n :: upto n end.
(** addresses of images and blocks still allocated *)
Definition left_over (r : res (list (list Z) * st)) : list Z * list Z :=
  match r with
  | Ok (_, s) => (filter (fun a => non_null (option_map (fun _ => 0) (ims s a))) (upto (Z.to_nat (nxt s))),
                  filter (fun a => non_null (option_map (fun _ => 0) (bks s a))) (upto (Z.to_nat (nxt s))))
  | _ => ([], [])
  end.
(** the example histories; [Init] is computed once *)
Definition h_clone := [Clone; Delete [1]; SetDur 3].
Definition h_shut := [ShutDown; SetDur 3].
Definition h_self := [Copy 1].
Definition h_gen := [Gen 1; Bind 2; Delete [2]; Bind 2; IsImage 2; Gen 1; Gen 2].
Definition h_pal := [RegPal (Some [1;2;3]) 3 IL_PAL_NONE; ShutDown].
Definition h_both := [RegFaces 1; SubImage IL_SUB_MIPMAP 1; ShutDown].
Definition h_mips := [SubImage IL_SUB_MIPMAP 3; Num LMips; Active LMips 2].
Definition h_layers := [SubImage IL_SUB_LAYER 3; Num LLayers; Active LLayers 2].
Definition h_deep := [SubImage IL_SUB_NEXT 1; Bind 2; Copy 1; Num LNext].
Definition h_sub := [Bind 3; SubImage IL_SUB_NEXT 1; Active LNext 1; Copy 1; SetDur 1].
Definition h_good := [Gen 3; Bind 3; TexImage 2 1 1 3 IL_RGB IL_UNSIGNED_BYTE (Some [1;2;3;4;5;6]); RegPal (Some [7;8;9]) 3 IL_PAL_RGB24;
  SubImage IL_SUB_NEXT 2; Num LNext; Bind 40; Copy 3; IsImage 40; Delete [2; 3; 99; 2]; IsImage 3].

(** [ilInit] with the fill of the default image abstracted: the fill is the only large
    computation, and no example depends on the bytes it writes. *)
Section With.
Variables (A : oracle) (fill : Z -> list Z -> res (list Z)) (D : M bool) (B : M unit).
Definition Default_with : M bool :=
  do c <- get cur;
  match c with
  | None => exec raise IL_ILLEGAL_OPERATION; ret false
  | Some a =>
      do ok <- ilTexImage A 64 64 1 3 IL_BGR IL_UNSIGNED_BYTE None;
      if negb ok then ret false else
      do i <- get_im a;
      match iData i with
      | None => ub
      | Some b =>
          do l <- get_blk b;
          match fill (hBpp (hd i)) l with
          | Ok l' => exec put_blk b l'; ret true
          | UB => ub
          | Fuel => fun _ => Fuel
          end
      end
  end.
Definition SetImage0_with : M unit :=
  do t <- get stk;
  do ok <- (match t with None => iEnlargeStack A | Some _ => ret true end);
  if negb ok then ret tt else
  exec mod_ (set_lst 1);
  exec mod_ (set_cnm 0);
  do p <- slot 0;
  exec (if non_null p then ret tt else do p <- new1 A; set_slot 0 p);
  do p <- slot 0;
  exec mod_ (set_cur p);
  exec D; ret tt.
Definition Init_with : M unit :=
  do b <- get ini;
  if b : bool then ret tt
  else
    exec raise IL_NO_ERROR;
    exec SetImage0_with;
    exec B;
    mod_ (set_ini true).
Definition pre : st :=
  match (exec raise IL_NO_ERROR; do ok <- iEnlargeStack A; exec mod_ (set_lst 1); exec mod_ (set_cnm 0);
         do p <- new1 A; exec set_slot 0 p; mod_ (set_cur p)) st0 with Ok (_, s) => s | _ => st0 end.
Definition default_arg (s : st) : option (Z * list Z) :=
  match cur s with
  | None => None
  | Some a =>
    match ilTexImage A 64 64 1 3 IL_BGR IL_UNSIGNED_BYTE None s with
    | Ok (true, s') => match ims s' a with
                       | Some i => match iData i with
                                   | Some b => match bks s' b with Some l => Some (hBpp (hd i), l) | None => None end
                                   | None => None end
                       | None => None end
    | _ => None
    end
  end.
End With.
Lemma Init_with_ok : forall A, ilInit A = Init_with A (Default_with A checker_fill) (iBindImageTemp A).
Proof. reflexivity. Qed.

Lemma Default_ext : forall A f1 f2 s b l, default_arg A s = Some (b, l) -> f1 b l = f2 b l ->
  Default_with A f1 s = Default_with A f2 s.
Proof.
  intros A f1 f2 s b l H E. unfold default_arg, Default_with, bindM, get in *. cbn [bind].
  destruct (cur s) as [a|]; [|discriminate]. set (t := ilTexImage A 64 64 1 3 IL_BGR IL_UNSIGNED_BYTE None) in *. clearbody t.
  destruct (t s) as [[[|] s']| |]; try discriminate. cbn [bind negb]. unfold get_im.
  destruct (ims s' a) as [i|]; [|discriminate]. cbn [bind]. destruct (iData i) as [d|]; [|discriminate]. unfold get_blk.
  destruct (bks s' d) as [L|]; [|discriminate]. cbn [bind]. injection H as -> ->. rewrite E. reflexivity.
Qed.

Definition A1 (f : Z -> list Z) : oracle := fun w t n => Some (match w with WBytes => f n | _ => [] end).
Lemma Init_pre : forall f D B, Init_with (A1 f) D B st0 = (exec (exec D; ret tt); exec B; mod_ (set_ini true)) (pre (A1 f)).
Proof. intros. lazy. reflexivity. Qed.
Lemma pre_arg : forall f, default_arg (A1 f) (pre (A1 f)) = Some (3, f 12288).
Proof. intros. lazy. reflexivity. Qed.

(** the state after ilInit, as a function of the bytes of the default image *)
Definition init_res (f : Z -> list Z) (l : list Z) : res (unit * st) :=
  (exec (exec Default_with (A1 f) (fun _ _ => Ok l); ret tt); exec iBindImageTemp (A1 f); mod_ (set_ini true)) (pre (A1 f)).
Definition init_st (l : list Z) : st := match init_res (fun n => repeat 205 (Z.to_nat n)) l with Ok (_, s) => s | _ => st0 end.
Lemma init_res_ok : forall f l, match init_res f l with Ok _ => True | _ => False end.
Proof. intros. lazy. exact I. Qed.
Lemma Init_cong : forall (D1 D2 : M bool) (B : M unit) s, D1 s = D2 s ->
  (exec (exec D1; ret tt); exec B; mod_ (set_ini true)) s = (exec (exec D2; ret tt); exec B; mod_ (set_ini true)) s.
Proof. intros D1 D2 B s E. unfold bindM. rewrite E. reflexivity. Qed.
Lemma Init_st : exists l, step A0 Init st0 = Ok ([], init_st l).
Proof.
  destruct (checker_ok (repeat 205 (Z.to_nat 12288))) as [l [E _]]; [rewrite zlen_repeat; reflexivity|].
  exists l. assert (H : ilInit A0 st0 = init_res (fun n => repeat 205 (Z.to_nat n)) l).
  { rewrite Init_with_ok. change A0 with (A1 (fun n => repeat 205 (Z.to_nat n))). rewrite Init_pre. unfold init_res.
    exact (Init_cong _ _ _ _ (Default_ext _ checker_fill (fun _ _ => Ok l) _ _ _ (pre_arg _) E)). }
  unfold step, bindM, init_st. rewrite H. generalize (init_res_ok (fun n => repeat 205 (Z.to_nat n)) l).
  destruct (init_res _ l) as [[u s]| |]; [|contradiction|contradiction]. intros _. reflexivity.
Qed.

Lemma battery : forall l, let s := init_st l in
  ([out (run A0 h_clone s); out (run A0 h_shut s); out (run A0 h_self s); out (run A0 h_sub s)],
   [out (run A0 h_gen s); out (run A0 h_mips s); out (run A0 h_layers s); out (run A0 h_deep s); out (run A0 h_good s)],
   [left_over (run A0 (h_gen ++ [ShutDown]) s); left_over (run A0 h_pal s); left_over (run A0 h_both s)])
  =
  ([UB; UB; UB; UB],
   [Ok [[2]; []; []; []; [1]; [2]; [3; 4]]; Ok [[3]; [1]; [0]]; Ok [[3]; [1]; [0]]; Ok [[1]; []; [1]; [0]];
    Ok [[2; 3; 4]; []; [1]; []; [2]; [2]; []; [1]; [1]; []; [0]]],
   [([8], [9]); ([], [6]); ([8], [9])]).
Proof. intros l. lazy. reflexivity. Qed.
