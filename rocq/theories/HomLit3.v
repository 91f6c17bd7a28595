(** The syntax trees of is_linear, get_inv_1 and get_inv_2, src/homogenize.cpp, against the model. *)
From Coq Require Import String FMapPositive.
From Verif Require Import Base Scalar MicroModel ApiRun Clite CliteRules EllAst AsmAst HomAst Sym SymStep Grid EllModel AssemblyModel
  EllLit EllLit2 EllLit6 EllLit7 SymFold AsmCalls AsmPure AsmLit AsmLit2 AsmLit13 AsmLit14 AsmLit15 AsmLit16 AsmLit18 AsmLit19 AsmLit22 AsmLit28 HomLit HomLit2.
Local Open Scope string_scope.
Local Open Scope Z_scope.

Lemma mapM_lget {T} {OT : Ops T} (f : Z -> res T) n s : mapM f (zrange 0 n) = Ok s -> forall i, 0 <= i < n -> f i = Ok (lget s i).
Proof.
  intros E i Hi. unfold lget. replace i with (0 + Z.of_nat (Z.to_nat i)) at 1 by lia.
  assert (B : 0 + Z.of_nat (Z.to_nat i) < n) by lia. clear Hi. revert E B. generalize 0 at 1 2 3. intros a E B. revert a s E B. induction (Z.to_nat i) as [|m IH]; intros a s E B.
  - rewrite Base.zrange_cons in E by lia. cbn [mapM] in E. apply bind_ok in E. destruct E as (y & Ey & E). apply bind_ok in E. destruct E as (ys & _ & E).
    injection E as <-. cbn. now rewrite Z.add_0_r.
  - rewrite Base.zrange_cons in E by lia. cbn [mapM] in E. apply bind_ok in E. destruct E as (y & Ey & E). apply bind_ok in E. destruct E as (ys & Es & E).
    injection E as <-. cbn [nth]. rewrite <- (IH (a + 1) ys Es) by lia. f_equal. lia.
Qed.
(** counting the passes of a loop *)
Definition tick (m i : Z) : res Z := if m =? i then Ok (i + 1) else Err OOB.
Lemma tick_all n : 0 <= n -> foldM tick (zrange 0 n) 0 = Ok n.
Proof.
  intros Hn. assert (G : forall j a, 0 <= a -> a + Z.of_nat j = n -> foldM tick (zrange a n) a = Ok n).
  { induction j as [|j IH]; intros a A B.
    - rewrite Base.zrange_empty by lia. cbn. f_equal. lia.
    - rewrite Base.zrange_cons by lia. cbn [foldM]. unfold tick at 1. rewrite Z.eqb_refl. cbn [bind]. apply IH; lia. }
  apply (G (Z.to_nat n)); lia.
Qed.
Lemma tick_ok m i m' : tick m i = Ok m' -> m = i /\ m' = i + 1.
Proof. unfold tick. destruct (Z.eqb_spec m i); [|discriminate]. intros [= <-]. auto. Qed.

Section Inv.
Context {T : Type} `{OT : Ops T}.
Notation state := (@state T).
Notation obj := (@obj T).
Notation val := (@val T).

Lemma eval_bin o a b (s : state) x y r : eval s a = Ok x -> eval s b = Ok y -> bin_op o x y = Ok r -> eval s (EBin o a b) = Ok r.
Proof. intros A B R. cbn [eval]. rewrite A. cbn [bind]. rewrite B. exact R. Qed.

Section At.
Variables (V : env T) (P : place) (k : Z) (h : Z -> option obj) (fs : list (string * option val)).
Hypothesis DD : v_dim V = 2 \/ v_dim V = 3.
Hypothesis HT : h (a_this P) = Some (OS fs).
Hypothesis TI : this_in fs V P.

Lemma dim_in : fget fs "dim" = Some (Some (VI (v_dim V))).
Proof. apply TI. now left. Qed.
Lemma nvoi_in : fget fs "nvoi" = Some (Some (VI (nvoi V))).
Proof. apply TI. right. right. now left. Qed.

Lemma inv1_text ta a t x : h ta = Some (OD a) -> pvec (nvoi V) a t -> get_inv_1 V t = Ok x ->
  exists st, calls hom_prog "get_inv_1" [VP (a_this P) 0; VP ta 0] h k (Ok (st, Ret (VD x))) /\ mem st = h /\ nxt st = k.
Proof.
  intros HA PV E.
  set (s0 := mkSt (fun y : string => if String.eqb y "tensor" then Some (@VP T ta 0) else if String.eqb y "this" then Some (VP (a_this P) 0) else None) h k).
  exists s0. split; [|auto]. change (runs hom_prog (f_body ast_get_inv_1) s0 (Ok (s0, Ret (VD x)))). cbn [f_body ast_get_inv_1 block].
  assert (ED : eval s0 (EFld (EV "this") "dim") = Ok (VI (v_dim V))) by (cbn; rewrite HT, dim_in; reflexivity).
  assert (EX : forall i, 0 <= i < nvoi V -> eval s0 (EIdx (EV "tensor") (EI i)) = Ok (VD (lget t i))).
  { intros i Hi. cbn. rewrite HA. now rewrite (rd_aget _ _ _ (PV i Hi)). }
  unfold get_inv_1 in E. unfold nvoi in EX.
  destruct DD as [D|D]; rewrite D in E, ED, EX; cbn [Z.eqb Pos.eqb] in E, EX; injection E as <-.
  - eapply runs_seq; [eapply runs_if; [cbn [eval]; cbn [eval] in ED; rewrite ED; reflexivity|reflexivity|apply runs_skip]|].
    apply runs_seq_stop; [|discriminate]. eapply runs_if; [cbn [eval]; cbn [eval] in ED; rewrite ED; reflexivity|reflexivity|]. cbn [Z.eqb Pos.eqb].
    apply runs_ret. pose proof (EX 0 ltac:(lia)) as E0. pose proof (EX 1 ltac:(lia)) as E1. eapply eval_bin; [exact E0|exact E1|reflexivity].
  - eapply runs_seq; [eapply runs_if; [cbn [eval]; cbn [eval] in ED; rewrite ED; reflexivity|reflexivity|apply runs_skip]|].
    apply runs_seq_stop; [|discriminate]. eapply runs_if; [cbn [eval]; cbn [eval] in ED; rewrite ED; reflexivity|reflexivity|]. cbn [Z.eqb Pos.eqb].
    eapply runs_if; [cbn [eval]; cbn [eval] in ED; rewrite ED; reflexivity|reflexivity|]. cbn [Z.eqb Pos.eqb].
    apply runs_ret. pose proof (EX 0 ltac:(lia)) as E0. pose proof (EX 1 ltac:(lia)) as E1. pose proof (EX 2 ltac:(lia)) as E2. 
    eapply eval_bin; [eapply eval_bin; [exact E0|exact E1|reflexivity]|exact E2|reflexivity].
Qed.

(** outside three dimensions the answer is 0.0 / 0.0 *)
Lemma inv2_text ta a t : h ta = Some (OD a) -> pvec (nvoi V) a t ->
  exists st, calls hom_prog "get_inv_2" [VP (a_this P) 0; VP ta 0] h k
    (Ok (st, Ret (VD (match get_inv_2 V t with Some x => x | None => odiv (ofZ 0) (ofZ 0) end)))) /\ mem st = h /\ nxt st = k.
Proof.
  intros HA PV.
  set (s0 := mkSt (fun y : string => if String.eqb y "tensor" then Some (@VP T ta 0) else if String.eqb y "this" then Some (VP (a_this P) 0) else None) h k).
  exists s0. split; [|auto]. match goal with |- calls _ _ _ _ _ ?r => change (runs hom_prog (f_body ast_get_inv_2) s0 r) end. cbn [f_body ast_get_inv_2 block].
  assert (ED : eval s0 (EFld (EV "this") "dim") = Ok (VI (v_dim V))) by (cbn; rewrite HT, dim_in; reflexivity).
  assert (EX : forall i, 0 <= i < nvoi V -> eval s0 (EIdx (EV "tensor") (EI i)) = Ok (VD (lget t i))).
  { intros i Hi. cbn. rewrite HA. now rewrite (rd_aget _ _ _ (PV i Hi)). }
  unfold get_inv_2. unfold nvoi in EX.
  destruct DD as [D|D]; rewrite D in *; cbn [Z.eqb Pos.eqb] in *.
  - eapply runs_seq; [eapply runs_if; [cbn [eval]; cbn [eval] in ED; rewrite ED; reflexivity|reflexivity|apply runs_skip]|].
    apply runs_ret. reflexivity.
  - apply runs_seq_stop; [|discriminate]. eapply runs_if; [cbn [eval]; cbn [eval] in ED; rewrite ED; reflexivity|reflexivity|]. cbn [Z.eqb Pos.eqb].
    apply runs_ret. pose proof (EX 0 ltac:(lia)) as E0. pose proof (EX 1 ltac:(lia)) as E1. pose proof (EX 2 ltac:(lia)) as E2.
    pose proof (EX 3 ltac:(lia)) as E3. pose proof (EX 4 ltac:(lia)) as E4. pose proof (EX 5 ltac:(lia)) as E5. 
    repeat (first [exact E0|exact E1|exact E2|exact E3|exact E4|exact E5|eapply eval_bin]); reflexivity.
Qed.

End At.

Section Lin.
Variables (V : env T) (P : place) (k : Z) (h : Z -> option obj) (fs : list (string * option val)).
Hypothesis DD : v_dim V = 2 \/ v_dim V = 3.
Hypothesis HT : h (a_this P) = Some (OS fs).
Hypothesis TI : this_in fs V P.
Variables (cl ec : Z) (c e : arr T) (m : T).
Hypothesis LK : a_this P < k /\ cl < k /\ ec < k.
Hypothesis HC : fget fs "ctan_lin" = Some (ptr cl).
Hypothesis HM : fget fs "inv_max" = Some (Some (VD m)).
Hypothesis HL : fget fs "inv_tol" = Some (Some (VD (v_inv_tol V))).
Hypothesis HCL : h cl = Some (OD c).
Hypothesis HEC : h ec = Some (OD e).

Definition il_env : list (string * val) := [("this", VP (a_this P) 0); ("macro_strain", VP ec 0); ("macro_stress", VP k 0)].
(** the rows below n are done *)
Definition rows (sv : list T) (n : Z) (s : state) : Prop := kenv il_env s /\ (forall d, d < k -> mem s d = h d) /\ nxt s = k + 1 /\
  exists a, mem s k = Some (OD a) /\ alen a = 6 /\ forall j, 0 <= j < n -> aget a j = Some (lget sv j).
(** row i is being summed *)
Definition sums (sv : list T) (i : Z) (acc : T) (s : state) : Prop := kenv il_env s /\ Clite.env s "i" = Some (VI i) /\ (forall d, d < k -> mem s d = h d) /\ nxt s = k + 1 /\
  exists a, mem s k = Some (OD a) /\ alen a = 6 /\ aget a i = Some acc /\ forall j, 0 <= j < i -> aget a j = Some (lget sv j).

Lemma test_h (s : state) x i : kenv il_env s -> (forall d, d < k -> mem s d = h d) -> Clite.env s x = Some (VI i) ->
  exists v, eval s (EBin Lt (EV x) (EFld (EV "this") "nvoi")) = Ok v /\ truth v = Ok (i <? nvoi V).
Proof.
  intros KE O X. apply (nvoi_test V P s fs x i DD); auto; [apply KE; cbn; tauto|]. rewrite O by lia. exact HT.
Qed.

Lemma row_text sv i s : lin_stress V c e = Ok sv -> 0 <= i < nvoi V -> rows sv i s -> Clite.env s "i" = Some (VI i) ->
  exists s', runs hom_prog (block [(SStore (EV "macro_stress") (EV "i") (EDbl (EI 0)));
   (SFor "j" (EI 0) (EBin Lt (EV "j") (EFld (EV "this") "nvoi")) (SStore (EV "macro_stress") (EV "i") (EBin Add (EIdx (EV "macro_stress") (EV "i")) (EBin Mul (EIdx (EFld (EV "this") "ctan_lin") (EBin Add (EBin Mul (EV "i") (EFld (EV "this") "nvoi")) (EV "j"))) (EIdx (EV "macro_strain") (EV "j"))))))])
    s (Ok (s', Nrm)) /\ rows sv (i + 1) s' /\ Clite.env s' "i" = Some (VI i).
Proof.
  intros EL Hi (KE & O & N & a & MA & LA & GA) X. pose proof (nvoi_le V DD) as NV.
  pose proof (mapM_lget _ _ _ EL i Hi) as ES. unfold sumM in ES.
  destruct (wr_ok a i (ofZ 0) ltac:(lia)) as (a1 & W1 & LW1 & GW1).
  set (s1 := set_mem s k (Some (OD a1))).
  assert (R1 : runs hom_prog (SStore (EV "macro_stress") (EV "i") (EDbl (EI 0))) s (Ok (s1, Nrm))).
  { apply (runs_store _ _ _ _ _ k 0 i (VD (ofZ 0)) a (ofZ 0) a1); auto.
    - cbn [eval]. now rewrite (KE "macro_stress" (VP k 0)) by (cbn; tauto).
    - cbn [eval]. now rewrite X. }
  assert (S1 : sums sv i (ofZ 0) s1).
  { split; [exact KE|]. split; [exact X|]. split; [|split; [exact N|]].
    - intros d LD. cbn. destruct (Z.eqb_spec d k); [lia|]. now apply O.
    - exists a1. cbn. rewrite Z.eqb_refl. split; [reflexivity|]. split; [lia|]. split; [now rewrite GW1, Z.eqb_refl|].
      intros j Hj. rewrite GW1. destruct (Z.eqb_spec j i); [lia|]. now apply GA. }
  destruct (runs_fold hom_prog _ "j" (EI 0) (EBin Lt (EV "j") (EFld (EV "this") "nvoi"))
    (SStore (EV "macro_stress") (EV "i") (EBin Add (EIdx (EV "macro_stress") (EV "i")) (EBin Mul (EIdx (EFld (EV "this") "ctan_lin") (EBin Add (EBin Mul (EV "i") (EFld (EV "this") "nvoi")) (EV "j"))) (EIdx (EV "macro_strain") (EV "j")))))
    (sums sv i) 0 (nvoi V) _ _ s1 ES S1 eq_refl) as (s2 & R2 & (K2 & X2 & O2 & N2 & a2 & M2 & L2 & G2 & H2)).
  { intros q t j (KE' & X' & Y). split; [apply kenv_set; [exact KE'|cbn; intuition discriminate]|]. split; [exact X'|exact Y]. }
  { intros j q t (KE' & X' & O' & Y) Z. now apply test_h. }
  { intros j q q' t Hj F (KE' & X' & O' & N' & b & MB & LB & GB & HB) Z.
    apply bind_ok in F. destruct F as (z & F & Q). injection Q as <-. apply bind_ok in F. destruct F as (x & Fx & F). apply bind_ok in F. destruct F as (y & Fy & Q).
    injection Q as <-. destruct (wr_ok b i (oadd q (omul x y)) ltac:(lia)) as (b1 & WB & LB1 & GB1). exists (set_mem t k (Some (OD b1))). split; [|split; [|exact Z]].
    - apply (runs_store _ _ _ _ _ k 0 i (VD (oadd q (omul x y))) b (oadd q (omul x y)) b1); auto.
      + cbn [eval]. now rewrite (KE' "macro_stress" (VP k 0)) by (cbn; tauto).
      + cbn [eval]. now rewrite X'.
      + cbn [eval]. rewrite (KE' "macro_stress" (VP k 0)), (KE' "this" (VP (a_this P) 0)), (KE' "macro_strain" (VP ec 0)), X', Z by (cbn; tauto).
        cbn [of_option bind to_int load]. rewrite MB. cbn [Z.add]. rewrite (rd_aget _ _ _ GB). cbn [bind]. unfold load_fld.
        rewrite (O' (a_this P)), HT, HC, (nvoi_in V P fs TI) by lia. cbn [bind]. cbn. rewrite !O' by lia. rewrite HCL, HEC, Fx. cbn [bind]. rewrite Fy. reflexivity.
    - split; [exact KE'|]. split; [exact X'|]. split; [|split; [exact N'|]].
      + intros d LD. cbn. destruct (Z.eqb_spec d k); [lia|]. now apply O'.
      + eexists. cbn. rewrite Z.eqb_refl. split; [reflexivity|]. split; [lia|]. split; [now rewrite GB1, Z.eqb_refl|].
        intros d Hd. rewrite GB1. destruct (Z.eqb_spec d i); [lia|]. now apply HB. }
  exists s2. split; [|split; [|exact X2]].
  - cbn [block]. eapply runs_seq; [exact R1|exact R2].
  - split; [exact K2|]. split; [exact O2|]. split; [exact N2|]. exists a2. split; [exact M2|]. split; [exact L2|].
    intros j Hj. destruct (Z.eq_dec j i) as [->|]; [exact G2|]. apply H2. lia.
Qed.

Theorem is_linear_text b m' : is_linear V c e m = Ok (b, m') ->
  exists st fs', calls hom_prog "is_linear" [VP (a_this P) 0; VP ec 0] h k (Ok (st, Ret (VI (if b : bool then 1 else 0)))) /\
    mem st (a_this P) = Some (OS fs') /\ fget fs' "inv_max" = Some (Some (VD m')) /\ (forall f, f <> "inv_max" -> fget fs' f = fget fs f) /\
    (forall d, d < k -> d <> a_this P -> mem st d = h d).
Proof.
  intros E. unfold is_linear in E. apply bind_ok in E. destruct E as (sv & EL & E). apply bind_ok in E. destruct E as (inv & EI1 & E).
  pose proof (nvoi_le V DD) as NV.
  set (s0 := mkSt (fun y : string => if String.eqb y "macro_strain" then Some (@VP T ec 0) else if String.eqb y "this" then Some (VP (a_this P) 0) else None) h k).
  set (s1 := alloc s0 "macro_stress" (OD (malloc 6))).
  assert (I1 : rows sv 0 s1).
  { split; [|split; [|split]].
    - intros x v I. cbn in I. destruct I as [[= <- <-]|[[= <- <-]|[[= <- <-]|[]]]]; reflexivity.
    - intros d LD. cbn. destruct (Z.eqb_spec d k); [lia|reflexivity].
    - reflexivity.
    - exists (malloc 6). cbn. rewrite Z.eqb_refl. split; [reflexivity|]. split; [reflexivity|]. intros; lia. }
  destruct (runs_fold hom_prog tick "i" (EI 0) (EBin Lt (EV "i") (EFld (EV "this") "nvoi"))
    (block [(SStore (EV "macro_stress") (EV "i") (EDbl (EI 0)));
   (SFor "j" (EI 0) (EBin Lt (EV "j") (EFld (EV "this") "nvoi")) (SStore (EV "macro_stress") (EV "i") (EBin Add (EIdx (EV "macro_stress") (EV "i")) (EBin Mul (EIdx (EFld (EV "this") "ctan_lin") (EBin Add (EBin Mul (EV "i") (EFld (EV "this") "nvoi")) (EV "j"))) (EIdx (EV "macro_strain") (EV "j"))))))])
    (rows sv) 0 (nvoi V) 0 (nvoi V) s1 (tick_all (nvoi V) ltac:(lia)) I1 eq_refl) as (s2 & R2 & (K2 & O2 & N2 & a2 & M2 & L2 & G2)).
  { intros q t j (KE' & Y). split; [apply kenv_set; [exact KE'|cbn; intuition discriminate]|exact Y]. }
  { intros j q t (KE' & O' & Y) Z. now apply test_h. }
  { intros i q q' t Hi F I X. apply tick_ok in F. destruct F as (-> & ->). exact (row_text sv i t EL Hi I X). }
  assert (HT2 : mem s2 (a_this P) = Some (OS fs)) by (rewrite O2 by lia; exact HT).
  destruct (inv1_text V P (nxt s2) (mem s2) fs DD HT2 TI k a2 sv inv M2 G2 EI1) as (t3 & C3 & M3 & N3).
  set (s3 := set_env (mkSt (Clite.env s2) (mem t3) (nxt t3)) "inv" (VD inv)).
  assert (R3 : runs hom_prog (SCallR "inv" "get_inv_1" [(EV "this"); (EV "macro_stress")]) s2 (Ok (s3, Nrm))).
  { eapply runs_callsR; [|exact C3]. cbn [mapM eval]. rewrite (K2 "this" (VP (a_this P) 0)), (K2 "macro_stress" (VP k 0)) by (cbn; tauto). reflexivity. }
  assert (E3 : Clite.env s3 "this" = Some (VP (a_this P) 0)) by (cbn; apply K2; cbn; tauto).
  assert (X3 : eval s3 (EFabs (EV "inv")) = Ok (VD (oabs inv))) by reflexivity.
  assert (HT3 : mem s3 (a_this P) = Some (OS fs)) by (cbn; rewrite M3; exact HT2).
  assert (O3 : forall d, d < k -> mem s3 d = h d) by (intros d LD; cbn; rewrite M3; now apply O2).
  injection E as <- <-.
  assert (R4 : exists s4 fs', runs hom_prog (SIf (EBin Gt (EFabs (EV "inv")) (EFld (EV "this") "inv_max")) (SFld (EV "this") "inv_max" (EFabs (EV "inv"))) SSkip) s3 (Ok (s4, Nrm)) /\
    Clite.env s4 = Clite.env s3 /\ mem s4 (a_this P) = Some (OS fs') /\ fget fs' "inv_max" = Some (Some (VD (if oltb m (oabs inv) then oabs inv else m))) /\
    (forall f, f <> "inv_max" -> fget fs' f = fget fs f) /\ forall d, d < k -> d <> a_this P -> mem s4 d = h d).
  { assert (EM : eval s3 (EFld (EV "this") "inv_max") = Ok (VD m)).
    { cbn [eval]. rewrite E3. cbn [of_option bind]. unfold load_fld. now rewrite HT3, HM. }
    assert (ET : eval s3 (EBin Gt (EFabs (EV "inv")) (EFld (EV "this") "inv_max")) = Ok (ofb (oltb m (oabs inv)))) by (eapply eval_bin; [exact X3|exact EM|reflexivity]).
    destruct (oltb m (oabs inv)).
    - exists (set_mem s3 (a_this P) (Some (OS (fset fs "inv_max" (VD (oabs inv)))))), (fset fs "inv_max" (VD (oabs inv))). splits.
      + eapply runs_if; [exact ET|reflexivity|]. cbv iota. eapply runs_fld; [|exact X3|exact HT3|exact HM]. cbn [eval]. now rewrite E3.
      + reflexivity.
      + cbn. now rewrite Z.eqb_refl.
      + rewrite fget_fset. cbn. now rewrite HM.
      + intros f NF. rewrite fget_fset. destruct (String.eqb_spec f "inv_max"); [contradiction|reflexivity].
      + intros d LD ND. cbn. destruct (Z.eqb_spec d (a_this P)); [contradiction|]. now apply O3.
    - exists s3, fs. splits; auto. eapply runs_if; [exact ET|reflexivity|]. apply runs_skip. }
  destruct R4 as (s4 & fs' & R4 & N4 & M4 & F4 & G4 & O4).
  exists s4, fs'. splits; auto.
  match goal with |- calls _ _ _ _ _ ?r => change (runs hom_prog (f_body ast_is_linear) s0 r) end. cbn [f_body ast_is_linear block].
  eapply runs_seq; [now apply runs_malloc|]. eapply runs_seq; [exact R2|]. eapply runs_seq; [exact R3|]. eapply runs_seq; [exact R4|].
  assert (ET : eval s4 (EBin Lt (EFabs (EV "inv")) (EFld (EV "this") "inv_tol")) = Ok (ofb (oltb (oabs inv) (v_inv_tol V)))).
  { apply (eval_bin Lt _ _ _ (VD (oabs inv)) (VD (v_inv_tol V))); [| |reflexivity].
    - cbn [eval]. rewrite N4. reflexivity.
    - cbn [eval]. rewrite N4, E3. cbn [of_option bind]. unfold load_fld. rewrite M4, G4 by discriminate. now rewrite HL. }
  eapply runs_if; [exact ET| |].
  - instantiate (1 := oltb (oabs inv) (v_inv_tol V)). now destruct (oltb (oabs inv) (v_inv_tol V)).
  - destruct (oltb (oabs inv) (v_inv_tol V)); now apply runs_ret.
Qed.
End Lin.

Lemma invariants_text (V : env T) P k h fs : v_dim V = 2 \/ v_dim V = 3 -> h (a_this P) = Some (OS fs) -> this_in fs V P ->
  forall ta a t, h ta = Some (OD a) -> pvec (nvoi V) a t ->
  (forall x, get_inv_1 V t = Ok x ->
     exists st, calls hom_prog "get_inv_1" [VP (a_this P) 0; VP ta 0] h k (Ok (st, Ret (VD x))) /\ mem st = h /\ nxt st = k) /\
  exists st, calls hom_prog "get_inv_2" [VP (a_this P) 0; VP ta 0] h k
    (Ok (st, Ret (VD (match get_inv_2 V t with Some x => x | None => odiv (ofZ 0) (ofZ 0) end)))) /\ mem st = h /\ nxt st = k.
Proof.
  intros DD HT TI ta a t HA PV. split; [intros x E; exact (inv1_text V P k h fs DD HT TI ta a t x HA PV E)|].
  exact (inv2_text V P k h fs DD HT TI ta a t HA PV).
Qed.
End Inv.
