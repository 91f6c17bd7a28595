(** The syntax tree of calc_ctan_lin, src/homogenize.cpp, against the model. *)
From Coq Require Import String FMapPositive.
From Verif Require Import Base Scalar MicroModel Clite CliteRules EllAst AsmAst HomAst Sym SymStep Grid EllModel AssemblyModel
  EllLit EllLit2 EllLit6 EllLit7 SymFold AsmCalls AsmPure AsmLit AsmLit2 AsmLit13 AsmLit14 AsmLit15 AsmLit16 AsmLit18 AsmLit19 AsmLit22 AsmLit28 HomLit.
Local Open Scope string_scope.
Local Open Scope Z_scope.

Section Hom.
Context {T : Type} `{OT : Ops T}.
Notation state := (@state T).
Notation obj := (@obj T).
Notation val := (@val T).
Notation work := (MicroModel.work T).

(** a loop over the cells of one array *)
Lemma loop_arr_h x l bx h1 k1 (f : arr T -> Z -> res (arr T)) n c body a a' s :
  foldM f (zrange 0 n) a = Ok a' -> on_arr l bx h1 k1 a s -> ~ In x (map fst l) ->
  (forall a s i, on_arr l bx h1 k1 a s -> Clite.env s x = Some (VI i) ->
     exists v, eval s c = Ok v /\ truth v = Ok (i <? n)) ->
  (forall i a a' s, 0 <= i < n -> f a i = Ok a' -> on_arr l bx h1 k1 a s -> Clite.env s x = Some (VI i) ->
     runs hom_prog body s (Ok (set_mem s bx (Some (OD a')), Nrm))) ->
  exists s', runs hom_prog (SFor x (EI 0) c body) s (Ok (s', Nrm)) /\ on_arr l bx h1 k1 a' s'.
Proof.
  intros E R0 NI HC HB. refine (runs_fold hom_prog f x _ _ _ (on_arr l bx h1 k1) 0 n a a' s E R0 (eq_refl : eval s (EI 0) = _) _ (fun i m t => HC m t i) _).
  - intros m t i (K & M & O & N). split; [now apply kenv_set|]. auto.
  - intros i m m' t I F R1 X. exists (set_mem t bx (Some (OD m'))). split; [now apply (HB i m)|].
    destruct R1 as (K & M & O & N). split; [|exact X]. split; [exact K|]. cbn. rewrite Z.eqb_refl. splits; auto.
    intros d D. destruct (Z.eqb_spec d bx); [contradiction|auto].
Qed.

Lemma nvoi_le (V : env T) : v_dim V = 2 \/ v_dim V = 3 -> 3 <= nvoi V <= 6.
Proof. unfold nvoi. intros [->| ->]; cbn; lia. Qed.
(** i < nvoi *)
Lemma nvoi_test V P (s : state) fs x i : v_dim V = 2 \/ v_dim V = 3 -> Clite.env s "this" = Some (VP (a_this P) 0) -> mem s (a_this P) = Some (OS fs) ->
  this_in fs V P -> Clite.env s x = Some (VI i) ->
  exists v, eval s (EBin Lt (EV x) (EFld (EV "this") "nvoi")) = Ok v /\ truth v = Ok (i <? nvoi V).
Proof.
  intros D E M TI X. exists (ofb (i <? nvoi V)). split; [|unfold ofb; now destruct (i <? nvoi V)].
  cbn [eval]. rewrite X, E. cbn [of_option bind]. unfold load_fld. rewrite M.
  rewrite (TI "nvoi" (Some (VI (nvoi V)))); [reflexivity|]. right. right. left. reflexivity.
Qed.

Section Lin.
Variables (V : env T) (P : place) (bc bv cl k : Z) (h : Z -> option obj) (fs : list (string * option val)).
Hypothesis DD : v_dim V = 2 \/ v_dim V = 3.
Hypothesis Z0 : dec 0 1 = (ofZ 0 : T).
Hypothesis ND : NoDup (whole_addrs P bc bv ++ [cl])%list.
Hypothesis FK : Forall (fun a => a < k) (whole_addrs P bc bv ++ [cl])%list.
Hypothesis HT : h (a_this P) = Some (OS fs).
Hypothesis HC : fget fs "ctan_lin" = Some (ptr cl).

Definition lin_touch : list Z := [a_vn P; a_u P; bv; a_b P; a_du P; cl].
Definition lin_env : list (string * val) :=
  [("this", VP (a_this P) 0); ("sig_1", VP k 0); ("eps_1", VP (k + 1) 0); ("d_eps", VD d_eps)].
Definition lin_inv (m : work * arr T) (s : state) : Prop :=
  kenv lin_env s /\ whole V P bc bv (fst m) (mem s) /\ mem s cl = Some (OD (snd m)) /\
  (exists a, mem s k = Some (OD a) /\ alen a = 6) /\ (exists a, mem s (k + 1) = Some (OD a) /\ alen a = 6) /\
  frame h (mem s) k lin_touch /\ blank_from (mem s) (nxt s) /\ k + 2 <= nxt s.

Definition lin_body : stmt :=
  (block [(SFor "v" (EI 0) (EBin Lt (EV "v") (EFld (EV "this") "nvoi")) (SStore (EV "eps_1") (EV "v") (EDbl (EI 0))));
 (SStore (EV "eps_1") (EV "i") (EBin Add (EIdx (EV "eps_1") (EV "i")) (EV "d_eps")));
 (SMalloc "nr_its" TInt (EI 1));
 (SMalloc "nl_flag" TInt (EI 1));
 (SMalloc "nr_err" TDbl (EI 1));
 (SCall "set_displ" [(EV "this"); (EV "eps_1")]);
 (SCall "newton_raphson" [(EV "this"); (EV "nl_flag"); (EV "nr_its"); (EV "nr_err")]);
 (SCall "calc_ave_stress" [(EV "this"); (EV "sig_1")]);
 (SFor "v" (EI 0) (EBin Lt (EV "v") (EFld (EV "this") "nvoi")) (SStore (EFld (EV "this") "ctan_lin") (EBin Add (EBin Mul (EV "v") (EFld (EV "this") "nvoi")) (EV "i")) (EBin Div (EIdx (EV "sig_1") (EV "v")) (EV "d_eps"))))]).

Lemma lin_env_at x v (s : state) : kenv lin_env s -> In (x, v) lin_env -> Clite.env s x = Some v.
Proof. intros K I. now apply K. Qed.

Lemma this_at (m : work * arr T) s : lin_inv m s -> mem s (a_this P) = Some (OS fs) /\ this_in fs V P.
Proof.
  intros (_ & ((fs' & l2 & B0 & B1 & _) & _) & _ & _ & _ & FR & _). pose proof FK as L. cbn in L. lt_all L.
  assert (M : mem s (a_this P) = Some (OS fs)) by (rewrite FR; [exact HT|lia|nin]).
  split; [exact M|]. rewrite B0 in M. now injection M as ->.
Qed.

(** eps_1 = 0; eps_1[i] += d_eps *)
Lemma eps_part m s i : lin_inv m s -> Clite.env s "i" = Some (VI i) -> 0 <= i < nvoi V ->
  exists s' ae, (forall r c, runs hom_prog c s' r -> runs hom_prog (SSeq (SFor "v" (EI 0) (EBin Lt (EV "v") (EFld (EV "this") "nvoi")) (SStore (EV "eps_1") (EV "v") (EDbl (EI 0))))
      (SSeq (SStore (EV "eps_1") (EV "i") (EBin Add (EIdx (EV "eps_1") (EV "i")) (EV "d_eps"))) c)) s r) /\
    lin_inv m s' /\ Clite.env s' "i" = Some (VI i) /\ mem s' (k + 1) = Some (OD ae) /\ alen ae = 6 /\
    pvec (nvoi V) ae (bump (nvoi V) (zeros (nvoi V)) i) /\ nxt s' = nxt s.
Proof.
  intros IV EVi Hi. pose proof (this_at _ _ IV) as (MT & TI). pose proof IV as (KE & WH & HCL & HSG & (a & HA & LA) & FR & BL & LE).
  pose proof (nvoi_le V DD) as NV. pose proof FK as L. cbn in L. lt_all L.
  set (f := fun (a : arr T) v => wr a v (ofZ 0)).
  assert (E1 : exists a', foldM f (zrange 0 (nvoi V)) a = Ok a' /\ alen a' = 6 /\ forall j, 0 <= j < nvoi V -> aget a' j = Some (ofZ 0)).
  { assert (X : forall n (a : arr T), 0 <= n <= 6 -> alen a = 6 -> exists a', foldM f (zrange 0 n) a = Ok a' /\ alen a' = 6 /\ forall j, 0 <= j < n -> aget a' j = Some (ofZ 0)).
    { clear. intros n a [Hn0 Hn]. revert Hn. pattern n. apply natlike_ind; [| |exact Hn0].
      - intros _ L. exists a. rewrite zrange_empty by lia. split; [reflexivity|]. split; [exact L|]. lia.
      - intros m Hm IH Hn L. destruct (IH ltac:(lia) L) as (a1 & E & L1 & G). rewrite <- Z.add_1_r. rewrite zrange_snoc by lia. rewrite foldM_app, E. cbn [bind foldM].
        destruct (wr_ok a1 m (ofZ 0) ltac:(lia)) as (a2 & W & L2 & G2). unfold f at 1. rewrite W. cbn [bind]. exists a2. split; [reflexivity|].
        split; [lia|]. intros j Hj. rewrite G2. destruct (Z.eqb_spec j m); [reflexivity|]. apply G. lia. }
    apply X; [lia|exact LA]. }
  destruct E1 as (a1 & E1 & L1 & G1).
  set (l := ("i", VI i) :: lin_env).
  destruct (loop_arr_h "v" l (k + 1) (mem s) (nxt s) f (nvoi V) (EBin Lt (EV "v") (EFld (EV "this") "nvoi"))
    (SStore (EV "eps_1") (EV "v") (EDbl (EI 0))) a a1 s E1) as (s1 & R1 & (K1 & M1 & O1 & N1)).
  { split; [apply kenv_cons; assumption|]. splits; auto. }
  { cbn. intuition discriminate. }
  { intros a0 t j (Kt & Mt & Ot & Nt) X. apply (nvoi_test V P t fs "v" j DD); [apply Kt; cbn; tauto| |exact TI|exact X].
    rewrite Ot by lia. exact MT. }
  { intros j a0 a0' t Hj W (Kt & Mt & Ot & Nt) X. apply (runs_store _ _ _ _ _ (k + 1) 0 j (VD (ofZ 0)) a0 (ofZ 0) a0'); auto.
    - cbn [eval]. rewrite (Kt "eps_1" (VP (k + 1) 0)) by (cbn; tauto). reflexivity.
    - cbn [eval]. now rewrite X. }
  destruct (wr_ok a1 i (oadd (ofZ 0) d_eps) ltac:(lia)) as (a2 & W2 & L2 & G2).
  exists (set_mem s1 (k + 1) (Some (OD a2))), a2. split; [|split; [|split; [|split; [|split; [|split]]]]].
  - intros r c Rc. eapply runs_seq; [exact R1|]. eapply runs_seq; [|exact Rc].
    apply (runs_store _ _ _ _ _ (k + 1) 0 i (VD (oadd (ofZ 0) d_eps)) a1 (oadd (ofZ 0) d_eps) a2); auto; cbn [eval].
    + rewrite (K1 "eps_1" (VP (k + 1) 0)) by (cbn; tauto). reflexivity.
    + rewrite (K1 "i" (VI i)) by (cbn; tauto). reflexivity.
    + rewrite (K1 "eps_1" (VP (k + 1) 0)) by (cbn; tauto). rewrite (K1 "i" (VI i)) by (cbn; tauto). rewrite (K1 "d_eps" (VD d_eps)) by (cbn; tauto).
      cbn [of_option bind to_int load]. rewrite M1. cbn [Z.add]. rewrite (rd_aget _ _ _ (G1 i Hi)). reflexivity.
  - assert (O : forall c, c <> k + 1 -> mem (set_mem s1 (k + 1) (Some (OD a2))) c = mem s c).
    { intros c D. cbn. destruct (Z.eqb_spec c (k + 1)); [contradiction|]. now apply O1. }
    destruct WH as (BD & MA & HB & HD). split; [|split; [|split; [|split; [|split; [|split; [|split]]]]]].
    + intros x v I. apply K1. now right.
    + unfold whole. splits.
      * eapply body_ext; [|exact BD]. intros c I. apply O. cbn in I. repeat (destruct I as [<-|I]); [lia ..|contradiction].
      * apply (mat_ext (mem s)); [apply O; lia ..|exact MA].
      * rewrite O by lia. exact HB.
      * rewrite O by lia. exact HD.
    + rewrite O by lia. exact HCL.
    + rewrite O by lia. exact HSG.
    + exists a2. split; [cbn; now rewrite Z.eqb_refl|lia].
    + intros c LC N. rewrite O by lia. now apply FR.
    + intros c I. cbn [set_mem nxt] in I. rewrite N1 in I. rewrite O by lia. now apply BL.
    + cbn [set_mem nxt]. rewrite N1. exact LE.
  - cbn. apply K1. cbn. tauto.
  - cbn. now rewrite Z.eqb_refl.
  - lia.
  - intros j Hj. unfold bump. rewrite lget_ltab by exact Hj. rewrite G2. unfold zeros. rewrite lget_ltab by exact Hj.
    destruct (Z.eqb_spec j i); [reflexivity|]. now apply G1.
  - exact N1.
Qed.
Lemma nd_join (l l2 : list Z) n : NoDup l -> NoDup l2 -> Forall (fun a => a < n) l -> Forall (fun a => n <= a) l2 -> NoDup (l ++ l2)%list.
Proof.
  intros N1 N2 F1 F2. induction l as [|a l IH]; [exact N2|]. apply NoDup_cons_iff in N1. destruct N1 as (N & N1).
  apply Forall_cons_iff in F1. destruct F1 as (F & F1). cbn [app]. constructor; [|now apply IH].
  rewrite in_app_iff. intros [Q|Q]; [contradiction|]. rewrite Forall_forall in F2. specialize (F2 a Q). cbv beta in F. lia.
Qed.
Lemma respond_alone fuel eps (w : work) : respond fuel (rd (malloc 1)) V eps w = respond fuel alone V eps w.
Proof. unfold respond. destruct (set_displ V eps (w_u w)) as [u|]; [|reflexivity]. cbn [bind]. now rewrite newton_alone. Qed.

(** the three results of newton_raphson *)
Definition news (s : state) : state :=
  alloc (alloc (alloc s "nr_its" (OI (malloc 1))) "nl_flag" (OI (malloc 1))) "nr_err" (OD (malloc 1)).
Lemma news_mem s c : c < nxt s -> mem (news s) c = mem s c.
Proof.
  intros L. unfold news, alloc. cbn [mem nxt]. destruct (Z.eqb_spec c (nxt s + 1 + 1)); [lia|]. destruct (Z.eqb_spec c (nxt s + 1)); [lia|].
  destruct (Z.eqb_spec c (nxt s)); [lia|reflexivity].
Qed.
Lemma news_runs s r c : runs hom_prog c (news s) r ->
  runs hom_prog (SSeq (SMalloc "nr_its" TInt (EI 1)) (SSeq (SMalloc "nl_flag" TInt (EI 1)) (SSeq (SMalloc "nr_err" TDbl (EI 1)) c))) s r.
Proof. intros R. eapply runs_seq; [now apply runs_malloc|]. eapply runs_seq; [now apply runs_malloc|]. eapply runs_seq; [now apply runs_malloc|]. exact R. Qed.
Lemma news_ok m s i ae : lin_inv m s -> Clite.env s "i" = Some (VI i) -> mem s (k + 1) = Some (OD ae) ->
  lin_inv m (news s) /\ Clite.env (news s) "i" = Some (VI i) /\ mem (news s) (k + 1) = Some (OD ae) /\
  mem (news s) (nxt s) = Some (OI (malloc 1)) /\ mem (news s) (nxt s + 1) = Some (OI (malloc 1)) /\ mem (news s) (nxt s + 2) = Some (OD (malloc 1)) /\
  Clite.env (news s) "nr_its" = Some (VP (nxt s) 0) /\ Clite.env (news s) "nl_flag" = Some (VP (nxt s + 1) 0) /\ Clite.env (news s) "nr_err" = Some (VP (nxt s + 2) 0) /\
  nxt (news s) = nxt s + 3.
Proof.
  intros (KE & WH & HCL & HSG & (a & HA & LA) & FR & BL & LE) EVi HEP. pose proof FK as L. cbn in L. lt_all L.
  assert (NX : nxt (news s) = nxt s + 3) by (cbn; lia). destruct WH as (BD & MA & HB & HD).
  pose proof (news_mem s) as O.
  splits; auto.
  - split; [|split; [|split; [|split; [|split; [|split; [|split]]]]]].
    + intros x v I. rewrite <- (KE x v I). cbn in I. repeat (destruct I as [[= <- <-]|I]; [reflexivity|]). contradiction.
    + unfold whole. splits.
      * eapply body_ext; [|exact BD]. intros c I. apply O. cbn in I. repeat (destruct I as [<-|I]); [lia ..|contradiction].
      * apply (mat_ext (mem s)); [apply O; lia ..|exact MA].
      * rewrite O by lia. exact HB.
      * rewrite O by lia. exact HD.
    + rewrite O by lia. exact HCL.
    + rewrite O by lia. exact HSG.
    + exists a. rewrite O by lia. auto.
    + intros c LC N. rewrite O by lia. now apply FR.
    + intros c I. rewrite NX in I. unfold news, alloc. cbn [mem nxt]. destruct (Z.eqb_spec c (nxt s + 1 + 1)); [lia|]. destruct (Z.eqb_spec c (nxt s + 1)); [lia|].
      destruct (Z.eqb_spec c (nxt s)); [lia|]. apply BL. lia.
    + lia.
  - rewrite O by lia. exact HEP.
  - unfold news, alloc. cbn [mem nxt]. destruct (Z.eqb_spec (nxt s) (nxt s + 1 + 1)); [lia|]. destruct (Z.eqb_spec (nxt s) (nxt s + 1)); [lia|]. now rewrite Z.eqb_refl.
  - unfold news, alloc. cbn [mem nxt]. destruct (Z.eqb_spec (nxt s + 1) (nxt s + 1 + 1)); [lia|]. now rewrite Z.eqb_refl.
  - unfold news, alloc. cbn [mem nxt]. replace (nxt s + 2) with (nxt s + 1 + 1) by lia. now rewrite Z.eqb_refl.
  - unfold news, alloc. cbn. do 2 f_equal. lia.
Qed.

(** one column *)
Lemma lin_step fuel w c s i w' nl it er sv c' : lin_inv (w, c) s -> Clite.env s "i" = Some (VI i) -> 0 <= i < nvoi V ->
  respond fuel alone V (bump (nvoi V) (zeros (nvoi V)) i) w = Ok (w', nl, it, er, sv) ->
  wr_col V c i (ltab (nvoi V) (fun v => odiv (lget sv v) d_eps)) = Ok c' ->
  exists s', runs hom_prog lin_body s (Ok (s', Nrm)) /\ lin_inv (w', c') s' /\ Clite.env s' "i" = Some (VI i).
Proof.
  intros IV EVi Hi ER EC.
  destruct (eps_part _ _ _ IV EVi Hi) as (s1 & ae & R1 & IV1 & EV1 & MA1 & LA1 & G1 & N1).
  destruct (news_ok _ _ _ _ IV1 EV1 MA1) as (IV2 & EV2 & MA2 & Q1 & Q2 & Q3 & Q4 & Q5 & Q6 & N2).
  pose proof (this_at _ _ IV2) as (MT & TI).
  pose proof IV2 as (KE & WH & HCL & (sa & HSG & LSG) & _ & FR & BL & LE). cbn [fst snd] in WH, HCL.
  set (K := nxt s1) in *. set (s2 := news s1) in *. pose proof (proj2 (proj2 (proj2 (proj2 (proj2 (proj2 (proj2 IV1))))))) as LE1. fold K in LE1.
  pose proof (nvoi_le V DD) as NV. pose proof FK as L. cbn in L. lt_all L.
  assert (NW : NoDup (whole_addrs P bc bv)) by (cbn; repeat (constructor; [nin|]); constructor).
  assert (FW : Forall (fun a => a < k) (whole_addrs P bc bv)) by (cbn; repeat (constructor; [lia|]); constructor).
  assert (NR : NoDup (nr_addrs P bc bv (K + 1) K (K + 2) ++ [k + 1; k])%list).
  { unfold nr_addrs. rewrite <- app_assoc. apply (nd_join _ _ k NW); [|exact FW|cbn; repeat (constructor; [lia|]); constructor].
    cbn. repeat (constructor; [cbn; lia|]). constructor. }
  assert (FR2 : Forall (fun a => a < nxt s2) (nr_addrs P bc bv (K + 1) K (K + 2) ++ [k + 1; k])%list).
  { rewrite N2. cbn. repeat (constructor; [lia|]). constructor. }
  rewrite <- respond_alone in ER.
  destruct (respond_text V P bc bv (K + 1) K (K + 2) (k + 1) k (nxt s2) (mem s2) w (malloc 1) (malloc 1) (malloc 1) ae sa _ DD Z0 NR FR2 BL WH Q2 eq_refl Q1 eq_refl Q3 eq_refl
    MA2 LA1 G1 HSG LSG fuel w' nl it er sv ER) as (t1 & t2 & t3 & fl' & sa' & C1 & C2 & C3 & W3 & M3 & L3 & G3 & _ & _ & FR3 & BL3 & K3).
  set (s3 := mkSt (Clite.env s2) (mem t3) (nxt t3)).
  assert (X3 : forall d, d < k -> ~ In d lin_touch -> mem s3 d = h d).
  { intros d LC N. cbn [s3 mem]. rewrite FR3; [now apply FR|lia|]. cbn in N |- *. lia. }
  assert (MT3 : mem s3 (a_this P) = Some (OS fs)) by (rewrite X3; [exact HT|lia|nin]).
  assert (MC3 : mem s3 cl = Some (OD c)).
  { cbn [s3 mem]. rewrite FR3; [exact HCL|lia|]. cbn. intros [Q|[Q|[Q|[Q|[Q|[Q|[Q|[Q|[Q|[]]]]]]]]]]; try lia; revert Q; match goal with |- ?x = ?y -> False => change (x <> y) end; ne. }
  unfold wr_col, run_stores in EC. rewrite foldM_map in EC. cbn [fst snd] in EC.
  set (l := ("i", VI i) :: lin_env).
  destruct (loop_arr_h "v" l cl (mem s3) (nxt s3) _ (nvoi V) (EBin Lt (EV "v") (EFld (EV "this") "nvoi"))
    (SStore (EFld (EV "this") "ctan_lin") (EBin Add (EBin Mul (EV "v") (EFld (EV "this") "nvoi")) (EV "i")) (EBin Div (EIdx (EV "sig_1") (EV "v")) (EV "d_eps"))) c c' s3 EC)
    as (s4 & R4 & (K4 & M4 & O4 & N4)).
  { split; [apply kenv_cons; assumption|]. splits; auto. }
  { cbn. intuition discriminate. }
  { intros a0 t j (Kt & Mt & Ot & Nt) X. apply (nvoi_test V P t fs "v" j DD); [apply Kt; cbn; tauto| |exact TI|exact X].
    rewrite Ot by ne. exact MT3. }
  { intros j a0 a0' t Hj W (Kt & Mt & Ot & Nt) X. rewrite lget_ltab in W by exact Hj.
    assert (MTt : mem t (a_this P) = Some (OS fs)) by (rewrite Ot by ne; exact MT3).
    apply (runs_store _ _ _ _ _ cl 0 (j * nvoi V + i) (VD (odiv (lget sv j) d_eps)) a0 (odiv (lget sv j) d_eps) a0'); auto.
    - cbn [eval]. rewrite (Kt "this" (VP (a_this P) 0)) by (cbn; tauto). cbn [of_option bind]. unfold load_fld. rewrite MTt, HC. reflexivity.
    - cbn [eval]. rewrite (Kt "this" (VP (a_this P) 0)) by (cbn; tauto). rewrite X, (Kt "i" (VI i)) by (cbn; tauto). cbn [of_option bind]. unfold load_fld.
      rewrite MTt. rewrite (TI "nvoi" (Some (VI (nvoi V)))) by (right; right; left; reflexivity). reflexivity.
    - cbn [eval]. rewrite (Kt "sig_1" (VP k 0)) by (cbn; tauto). rewrite X, (Kt "d_eps" (VD d_eps)) by (cbn; tauto). cbn [of_option bind to_int load].
      rewrite Ot by lia. cbn [s3 mem]. rewrite M3. cbn [Z.add]. rewrite (rd_aget _ _ _ (G3 j Hj)). reflexivity. }
  exists s4. split; [|split].
  - unfold lin_body. cbn [block]. apply R1. apply news_runs. fold s2.
    apply (runs_seq _ _ _ _ (mkSt (Clite.env s2) (mem t1) (nxt t1))).
    { refine (runs_calls hom_prog _ _ s2 _ t1 _ _ (calls_asm _ _ _ _ _ C1) _); [|discriminate]. cbn [mapM eval].
      rewrite (KE "this" (VP (a_this P) 0)), (KE "eps_1" (VP (k + 1) 0)) by (cbn; tauto). reflexivity. }
    apply (runs_seq _ _ _ _ (mkSt (Clite.env s2) (mem t2) (nxt t2))).
    { refine (runs_calls hom_prog _ _ (mkSt (Clite.env s2) (mem t1) (nxt t1)) _ t2 _ _ (calls_asm _ _ _ _ _ C2) _); [|discriminate]. cbn [mapM eval Clite.env].
      rewrite (KE "this" (VP (a_this P) 0)) by (cbn; tauto). rewrite Q4, Q5, Q6. reflexivity. }
    apply (runs_seq _ _ _ _ s3).
    { refine (runs_calls hom_prog _ _ (mkSt (Clite.env s2) (mem t2) (nxt t2)) _ t3 _ _ (calls_asm _ _ _ _ _ C3) _); [|discriminate]. cbn [mapM eval Clite.env].
      rewrite (KE "this" (VP (a_this P) 0)), (KE "sig_1" (VP k 0)) by (cbn; tauto). reflexivity. }
    exact R4.
  - destruct W3 as (BD & MA & HB & HD). split; [|split; [|split; [|split; [|split; [|split; [|split]]]]]]; cbn [fst snd].
    + intros x v I. apply K4. now right.
    + unfold whole. splits.
      * eapply body_ext; [|exact BD]. intros d I. apply O4. nei.
      * apply (mat_ext (mem t3)); [apply O4; ne ..|exact MA].
      * rewrite O4 by ne. exact HB.
      * rewrite O4 by ne. exact HD.
    + exact M4.
    + exists sa'. rewrite O4 by lia. auto.
    + exists ae. rewrite O4 by lia. cbn [s3 mem]. rewrite FR3; [auto|lia|]. cbn. lia.
    + intros d LC N. rewrite O4; [now apply X3|]. intros ->. apply N. cbn. tauto.
    + intros d I. rewrite N4 in I. rewrite O4; [now apply BL3|]. intros ->. cbn in I. lia.
    + rewrite N4. cbn [s3 nxt]. lia.
  - apply K4. now left.
Qed.

Theorem ctan_lin_text fuel w c w' c' : blank_from h k -> whole V P bc bv w h -> h cl = Some (OD c) ->
  calc_ctan_lin fuel (fun _ => alone) V w c = Ok (w', c') ->
  exists st, calls hom_prog "calc_ctan_lin" [VP (a_this P) 0] h k (Ok (st, Nrm)) /\
    whole V P bc bv w' (mem st) /\ mem st cl = Some (OD c') /\ frame h (mem st) k lin_touch /\ blank_from (mem st) (nxt st) /\ k <= nxt st.
Proof.
  intros BL WH HCL E. pose proof FK as L. cbn in L. lt_all L.
  set (e0 := fun y : string => if String.eqb y "this" then Some (@VP T (a_this P) 0) else None).
  set (s0 := mkSt e0 h k). set (s1 := alloc (alloc s0 "sig_1" (OD (malloc 6))) "eps_1" (OD (malloc 6))). set (s2 := set_env s1 "d_eps" (VD d_eps)).
  assert (O : forall d, d < k -> mem s2 d = h d).
  { intros d LD. cbn. destruct (Z.eqb_spec d (k + 1)); [lia|]. destruct (Z.eqb_spec d k); [lia|reflexivity]. }
  assert (IV : lin_inv (w, c) s2).
  { destruct WH as (BD & MA & HB & HD). split; [|split; [|split; [|split; [|split; [|split; [|split]]]]]]; cbn [fst snd].
    + intros x v I. cbn in I. destruct I as [[= <- <-]|[[= <- <-]|[[= <- <-]|[[= <- <-]|[]]]]]; reflexivity.
    + unfold whole. splits.
      * eapply body_ext; [|exact BD]. intros d I. apply O. cbn in I. repeat (destruct I as [<-|I]); [lia ..|contradiction].
      * apply (mat_ext h); [apply O; lia ..|exact MA].
      * rewrite O by lia. exact HB.
      * rewrite O by lia. exact HD.
    + rewrite O by lia. exact HCL.
    + exists (malloc 6). cbn. destruct (Z.eqb_spec k (k + 1)); [lia|]. rewrite Z.eqb_refl. auto.
    + exists (malloc 6). cbn. rewrite Z.eqb_refl. auto.
    + intros d LD _. now apply O.
    + intros d I. cbn in I |- *. destruct (Z.eqb_spec d (k + 1)); [lia|]. destruct (Z.eqb_spec d k); [lia|]. apply BL. lia.
    + cbn. lia. }
  unfold calc_ctan_lin in E.
  destruct (runs_fold hom_prog _ "i" (EI 0) (EBin Lt (EV "i") (EFld (EV "this") "nvoi")) lin_body lin_inv 0 (nvoi V) (w, c) (w', c') s2 E IV eq_refl) as (st & R & IV').
  { intros m t i (KE & X). split; [|exact X]. apply kenv_set; [exact KE|]. cbn. intuition discriminate. }
  { intros i m t Im X. pose proof (this_at _ _ Im) as (MT & TI). apply (nvoi_test V P t fs "i" i DD); [|exact MT|exact TI|exact X].
    apply (proj1 Im). cbn. tauto. }
  { intros i (w1, c1) (w2, c2) t Hi Ei Im X. cbn [fst snd] in Ei. apply bind_ok in Ei. destruct Ei as (((((w3 & nl) & it) & er) & sv) & E1 & Ei).
    apply bind_ok in Ei. destruct Ei as (c3 & E2 & Ei). injection Ei as <- <-. exact (lin_step fuel w1 c1 t i w3 nl it er sv c3 Im X Hi E1 E2). }
  destruct IV' as (_ & W' & C' & _ & _ & F' & B' & L'). cbn [fst snd] in W', C'.
  exists st. splits; auto; [|lia].
  change (runs hom_prog (f_body ast_calc_ctan_lin) s0 (Ok (st, Nrm))). cbn [f_body ast_calc_ctan_lin block].
  eapply runs_seq; [now apply runs_malloc|]. eapply runs_seq; [now apply runs_malloc|]. eapply runs_seq; [apply runs_set; reflexivity|]. exact R.
Qed.
End Lin.
End Hom.
