(** The syntax trees of the bodies of the loops over the Gauss points, src/homogenize.cpp, against the model: a point in the
    linear range, and update_vars. *)
From Coq Require Import String FMapPositive.
From Verif Require Import Base Scalar MicroModel ApiRun Clite CliteRules EllAst AsmAst HomAst GpAst Sym SymStep Grid EllModel AssemblyModel
  EllLit EllLit2 EllLit6 EllLit7 SymFold AsmCalls AsmPure AsmLit AsmLit2 AsmLit13 AsmLit14 AsmLit15 AsmLit16 AsmLit18 AsmLit19 AsmLit22 AsmLit28 HomLit HomLit2 HomLit3.
Local Open Scope string_scope.
Local Open Scope Z_scope.

Section Gp.
Context {T : Type} `{OT : Ops T}.
Notation state := (@state T).
Notation obj := (@obj T).
Notation val := (@val T).

Lemma hom_in_gp f d : hom_prog f = Some d -> gp_prog f = Some d.
Proof.
  intros E. unfold gp_prog.
  destruct (String.eqb_spec f "homogenize_gp"); [subst f; discriminate E|].
  destruct (String.eqb_spec f "update_gp"); [subst f; discriminate E|]. exact E.
Qed.
Lemma calls_hom f vs h k (r : state * sig) : calls hom_prog f vs h k (Ok r) -> calls gp_prog f vs h k (Ok r).
Proof. apply calls_mono. exact hom_in_gp. Qed.

(** a loop that stores v(i) at ix(i) of one array *)
Lemma fill (PR : string -> option fdef) x l bx h1 k1 n c body (ix : Z -> Z) (v : Z -> T) a (s : state) :
  0 <= n -> on_arr l bx h1 k1 a s -> ~ In x (map fst l) ->
  (forall i, 0 <= i < n -> 0 <= ix i < alen a) -> (forall i j, 0 <= i < n -> 0 <= j < n -> ix i = ix j -> i = j) ->
  (forall a s i, on_arr l bx h1 k1 a s -> Clite.env s x = Some (VI i) -> exists w, eval s c = Ok w /\ truth w = Ok (i <? n)) ->
  (forall i a0 a1 s, 0 <= i < n -> on_arr l bx h1 k1 a0 s -> Clite.env s x = Some (VI i) -> wr a0 (ix i) (v i) = Ok a1 ->
     runs PR body s (Ok (set_mem s bx (Some (OD a1)), Nrm))) ->
  exists s' a', runs PR (SFor x (EI 0) c body) s (Ok (s', Nrm)) /\ on_arr l bx h1 k1 a' s' /\ alen a' = alen a /\
    (forall i, 0 <= i < n -> aget a' (ix i) = Some (v i)) /\ (forall d, (forall i, 0 <= i < n -> d <> ix i) -> aget a' d = aget a d).
Proof.
  intros Hn R0 NI HI INJ HC HB.
  set (R := fun (m : Z) (t : state) => exists b, on_arr l bx h1 k1 b t /\ alen b = alen a /\ m <= n /\
    (forall i, 0 <= i < m -> aget b (ix i) = Some (v i)) /\ (forall d, (forall i, 0 <= i < n -> d <> ix i) -> aget b d = aget a d)).
  destruct (runs_fold PR tick x (EI 0) c body R 0 n 0 n s (tick_all n Hn)) as (s' & RS & (b & OB & LB & _ & GB & FB)).
  - exists a. splits; auto. intros; lia.
  - reflexivity.
  - intros m t i (b & (KE & Y) & B). exists b. split; [|exact B]. split; [now apply kenv_set|exact Y].
  - intros i m t (b & OB & _) X. exact (HC b t i OB X).
  - intros i m m' t Hi F (b & OB & LB & MB & GB & FB) X. apply tick_ok in F. destruct F as (-> & ->).
    destruct (wr_ok b (ix i) (v i)) as (b1 & WB & LB1 & GB1); [rewrite LB; now apply HI|].
    exists (set_mem t bx (Some (OD b1))). split; [exact (HB i b b1 t Hi OB X WB)|]. split; [|exact X].
    exists b1. split; [|split; [lia|split; [lia|split]]].
    + destruct OB as (K & M & O & N). split; [exact K|]. cbn. rewrite Z.eqb_refl. splits; auto.
      intros d D. destruct (Z.eqb_spec d bx); [contradiction|auto].
    + intros j Hj. rewrite GB1. destruct (Z.eqb_spec (ix j) (ix i)) as [Q|Q].
      * now rewrite (INJ j i ltac:(lia) Hi Q).
      * apply GB. destruct (Z.eq_dec j i) as [->|]; [contradiction|lia].
    + intros d D. rewrite GB1. destruct (Z.eqb_spec d (ix i)) as [Q|Q]; [now elim (D i Hi)|now apply FB].
  - exists s', b. splits; auto.
Qed.

Section At.
Variables (V : env T) (P : place) (ga cl ae ac as_ ai ar : Z) (c e : arr T) (gs : list (string * option val)).
Hypothesis DD : v_dim V = 2 \/ v_dim V = 3.
(** what the loops read *)
Definition gp_at (fs : list (string * option val)) (s : state) : Prop :=
  mem s (a_this P) = Some (OS fs) /\ this_in fs V P /\ fget fs "ctan_lin" = Some (ptr cl) /\ fget fs "num_int_vars" = Some (Some (VI (nvars V))) /\
  mem s ga = Some (OS gs) /\ mem s cl = Some (OD c) /\ mem s ae = Some (OD e).
Hypothesis GE : fget gs "macro_strain" = Some (ptr ae).
Hypothesis GC : fget gs "macro_ctan" = Some (ptr ac).
Hypothesis GS : fget gs "macro_stress" = Some (ptr as_).
Hypothesis GI : fget gs "nr_its" = Some (ptr ai).
Hypothesis GR : fget gs "nr_err" = Some (ptr ar).

Definition g_env : list (string * val) := [("this", VP (a_this P) 0); ("gp", VP ga 0)].

Lemma ev_gp f a (s : state) fs : kenv g_env s -> gp_at fs s -> fget gs f = Some (ptr a) -> eval s (EFld (EV "gp") f) = Ok (VP a 0).
Proof. intros KE (_ & _ & _ & _ & MG & _) F. cbn [eval]. rewrite (KE "gp" (VP ga 0)) by (cbn; tauto). cbn [of_option bind]. unfold load_fld. now rewrite MG, F. Qed.
Lemma ev_this f v (s : state) fs : kenv g_env s -> gp_at fs s -> fget fs f = Some (Some v) -> eval s (EFld (EV "this") f) = Ok v.
Proof. intros KE (MT & _) F. cbn [eval]. rewrite (KE "this" (VP (a_this P) 0)) by (cbn; tauto). cbn [of_option bind]. unfold load_fld. now rewrite MT, F. Qed.
Lemma ev_nvoi (s : state) fs : kenv g_env s -> gp_at fs s -> eval s (EFld (EV "this") "nvoi") = Ok (VI (nvoi V)).
Proof. intros KE GA. apply (ev_this _ _ s fs KE GA). apply (nvoi_in V P fs). apply GA. Qed.
Lemma ev_idx p i b j (s : state) a x : eval s p = Ok (VP b 0) -> eval s i = Ok (VI j) -> mem s b = Some (OD a) -> aget a j = Some x -> eval s (EIdx p i) = Ok (VD x).
Proof. intros E1 E2 M G. cbn [eval]. rewrite E1. cbn [bind]. rewrite E2. cbn [bind to_int load]. rewrite M. cbn [Z.add]. now rewrite (rd_aget _ _ _ G). Qed.
Lemma ev_row (s : state) fs i j x y : kenv g_env s -> gp_at fs s -> Clite.env s x = Some (VI i) -> Clite.env s y = Some (VI j) ->
  eval s (EBin Add (EBin Mul (EV x) (EFld (EV "this") "nvoi")) (EV y)) = Ok (VI (i * nvoi V + j)).
Proof.
  intros KE GA X Y. eapply eval_bin; [eapply eval_bin; [cbn [eval]; now rewrite X|exact (ev_nvoi s fs KE GA)|reflexivity]|cbn [eval]; now rewrite Y|reflexivity].
Qed.
Lemma lt_nvoi (s : state) fs x i : kenv g_env s -> gp_at fs s -> Clite.env s x = Some (VI i) ->
  exists v, eval s (EBin Lt (EV x) (EFld (EV "this") "nvoi")) = Ok v /\ truth v = Ok (i <? nvoi V).
Proof. intros KE GA X. apply (nvoi_test V P s fs x i DD); auto; [apply KE; cbn; tauto|apply GA|apply GA]. Qed.

(** the stress, src/homogenize.cpp:148-152 *)
Definition s_stress : stmt := (SFor "i" (EI 0) (EBin Lt (EV "i") (EFld (EV "this") "nvoi")) (block [(SStore (EFld (EV "gp") "macro_stress") (EV "i") (EDbl (EI 0)));
 (SFor "j" (EI 0) (EBin Lt (EV "j") (EFld (EV "this") "nvoi")) (SStore (EFld (EV "gp") "macro_stress") (EV "i") (EBin Add (EIdx (EFld (EV "gp") "macro_stress") (EV "i")) (EBin Mul (EIdx (EFld (EV "this") "ctan_lin") (EBin Add (EBin Mul (EV "i") (EFld (EV "this") "nvoi")) (EV "j"))) (EIdx (EFld (EV "gp") "macro_strain") (EV "j"))))))])).
(** the tangent, src/homogenize.cpp:154-156 *)
Definition s_ctan : stmt := (SFor "i" (EI 0) (EBin Lt (EV "i") (EFld (EV "this") "nvoi")) (SFor "j" (EI 0) (EBin Lt (EV "j") (EFld (EV "this") "nvoi")) (SStore (EFld (EV "gp") "macro_ctan") (EBin Add (EBin Mul (EV "i") (EFld (EV "this") "nvoi")) (EV "j")) (EIdx (EFld (EV "this") "ctan_lin") (EBin Add (EBin Mul (EV "i") (EFld (EV "this") "nvoi")) (EV "j")))))).
(** the counts, src/homogenize.cpp:158-161 *)
Definition s_cnt : stmt := (SFor "i" (EI 0) (EBin Lt (EV "i") (EBin Add (EI 1) (EFld (EV "this") "nvoi"))) (block [(SStore (EFld (EV "gp") "nr_its") (EV "i") (EI 0));
 (SStore (EFld (EV "gp") "nr_err") (EV "i") (EDbl (EI 0)))])).

(** a state that differs at one address only *)
Definition but (bx : Z) (h1 : Z -> option obj) (k1 : Z) (s : state) : Prop := (forall d, d <> bx -> mem s d = h1 d) /\ nxt s = k1.
Lemma gp_but fs bx (s t : state) : gp_at fs s -> (forall d, d <> bx -> mem t d = mem s d) -> bx <> a_this P -> bx <> ga -> bx <> cl -> bx <> ae -> gp_at fs t.
Proof. intros (A & B & C & D & E & F & G) O N1 N2 N3 N4. unfold gp_at. rewrite !O by congruence. splits; assumption. Qed.

Lemma ctan_loop fs (s : state) b : kenv g_env s -> gp_at fs s -> mem s ac = Some (OD b) -> alen b = 36 -> ~ In ac [a_this P; ga; cl; ae] ->
  (forall i, 0 <= i < nvoi V * nvoi V -> exists x, aget c i = Some x) ->
  exists s' b', runs gp_prog s_ctan s (Ok (s', Nrm)) /\ kenv g_env s' /\ mem s' ac = Some (OD b') /\ alen b' = 36 /\
    (forall i, 0 <= i < nvoi V * nvoi V -> aget b' i = aget c i) /\ (forall d, d <> ac -> mem s' d = mem s d) /\ nxt s' = nxt s.
Proof.
  intros KE GA MB LB NI FC. pose proof (nvoi_le V DD) as NV. assert (NQ : nvoi V * nvoi V <= 36) by nia.
  assert (N : ac <> a_this P /\ ac <> ga /\ ac <> cl /\ ac <> ae) by (cbn in NI; intuition). destruct N as (N1 & N2 & N3 & N4).
  set (R := fun (m : Z) (t : state) => exists b1, on_arr g_env ac (mem s) (nxt s) b1 t /\ alen b1 = 36 /\ forall i, 0 <= i < m * nvoi V -> aget b1 i = aget c i).
  assert (GAT : forall b1 t, on_arr g_env ac (mem s) (nxt s) b1 t -> gp_at fs t) by (intros b1 t (_ & _ & O & _); exact (gp_but fs ac s t GA O N1 N2 N3 N4)).
  destruct (runs_fold gp_prog tick "i" (EI 0) (EBin Lt (EV "i") (EFld (EV "this") "nvoi"))
    (SFor "j" (EI 0) (EBin Lt (EV "j") (EFld (EV "this") "nvoi")) (SStore (EFld (EV "gp") "macro_ctan") (EBin Add (EBin Mul (EV "i") (EFld (EV "this") "nvoi")) (EV "j")) (EIdx (EFld (EV "this") "ctan_lin") (EBin Add (EBin Mul (EV "i") (EFld (EV "this") "nvoi")) (EV "j")))))
    R 0 (nvoi V) 0 (nvoi V) s (tick_all (nvoi V) ltac:(lia))) as (s' & RS & (b1 & OB & LB1 & GB)).
  - exists b. split; [split; [exact KE|splits; auto]|]. split; [exact LB|]. intros; lia.
  - reflexivity.
  - intros m t i (b1 & (K & Y) & B). exists b1. split; [|exact B]. split; [apply kenv_set; [exact K|cbn; intuition discriminate]|exact Y].
  - intros i m t (b1 & OB & _) X. apply (lt_nvoi t fs); [apply OB|exact (GAT _ _ OB)|exact X].
  - intros i m m' t Hi F (b1 & OB & LB1 & GB) X. apply tick_ok in F. destruct F as (-> & ->).
    assert (OB' : on_arr (("i", VI i) :: g_env) ac (mem s) (nxt s) b1 t) by (destruct OB as (K & Y); split; [now apply kenv_cons|exact Y]).
    assert (KEq : forall a t, on_arr (("i", VI i) :: g_env) ac (mem s) (nxt s) a t -> on_arr g_env ac (mem s) (nxt s) a t).
    { intros a0 t0 (K & Y). split; [|exact Y]. intros x v I. apply K. now right. }
    destruct (fill gp_prog "j" (("i", VI i) :: g_env) ac (mem s) (nxt s) (nvoi V) (EBin Lt (EV "j") (EFld (EV "this") "nvoi"))
      (SStore (EFld (EV "gp") "macro_ctan") (EBin Add (EBin Mul (EV "i") (EFld (EV "this") "nvoi")) (EV "j")) (EIdx (EFld (EV "this") "ctan_lin") (EBin Add (EBin Mul (EV "i") (EFld (EV "this") "nvoi")) (EV "j"))))
      (fun j => i * nvoi V + j) (fun j => match aget c (i * nvoi V + j) with Some x => x | None => ofZ 0 end) b1 t) as (t' & b2 & RT & OT' & LB2 & GB2 & FB2).
    + lia.
    + exact OB'.
    + cbn. intuition discriminate.
    + intros j Hj. rewrite LB1. nia.
    + intros; lia.
    + intros a0 t0 j O0 X0. apply KEq in O0. apply (lt_nvoi t0 fs); [apply O0|exact (GAT _ _ O0)|exact X0].
    + intros j a0 a1 t0 Hj O0 X0 W0. assert (X1 : Clite.env t0 "i" = Some (VI i)) by (apply O0; now left). apply KEq in O0. pose proof (GAT _ _ O0) as GA0. pose proof (proj1 O0) as K0.
      assert (BD : 0 <= i * nvoi V + j < nvoi V * nvoi V) by nia. destruct (FC _ BD) as (x & Ex).
      rewrite Ex in W0. apply (runs_store gp_prog _ _ _ _ ac 0 (i * nvoi V + j) (VD x) a0 x a1); [exact (ev_gp _ _ _ _ K0 GA0 GC)|exact (ev_row _ _ _ _ _ _ K0 GA0 X1 X0)| |reflexivity|apply O0|exact W0].
      apply (ev_idx _ _ cl (i * nvoi V + j) _ c x); [|exact (ev_row _ _ _ _ _ _ K0 GA0 X1 X0)|apply GA0|exact Ex]. apply (ev_this _ _ _ _ K0 GA0). apply GA0.
    + exists t'. split; [exact RT|]. split.
      * exists b2. split; [exact (KEq _ _ OT')|]. split; [lia|]. intros q Hq. destruct (Z_lt_dec q (i * nvoi V)) as [L|L].
        { rewrite FB2; [apply GB; lia|]. intros j Hj. lia. }
        { assert (BD : 0 <= q < nvoi V * nvoi V) by nia. pose proof (GB2 (q - i * nvoi V) ltac:(lia)) as G. cbv beta in G. replace (i * nvoi V + (q - i * nvoi V)) with q in G by lia. rewrite G. destruct (FC q BD) as (x & ->). reflexivity. }
      * apply OT'. now left.
  - destruct OB as (K & M & O & Nx). exists s', b1. splits; auto.
Qed.

Lemma stress_loop fs (s : state) b sv : kenv g_env s -> gp_at fs s -> mem s as_ = Some (OD b) -> alen b = 6 -> ~ In as_ [a_this P; ga; cl; ae] ->
  lin_stress V c e = Ok sv ->
  exists s' b', runs gp_prog s_stress s (Ok (s', Nrm)) /\ kenv g_env s' /\ mem s' as_ = Some (OD b') /\ alen b' = 6 /\
    pvec (nvoi V) b' sv /\ (forall d, d <> as_ -> mem s' d = mem s d) /\ nxt s' = nxt s.
Proof.
  intros KE GA MB LB NI EL. pose proof (nvoi_le V DD) as NV.
  assert (N : as_ <> a_this P /\ as_ <> ga /\ as_ <> cl /\ as_ <> ae) by (cbn in NI; intuition). destruct N as (N1 & N2 & N3 & N4).
  set (R := fun (m : Z) (t : state) => exists b1, on_arr g_env as_ (mem s) (nxt s) b1 t /\ alen b1 = 6 /\ forall i, 0 <= i < m -> aget b1 i = Some (lget sv i)).
  assert (GAT : forall b1 t, on_arr g_env as_ (mem s) (nxt s) b1 t -> gp_at fs t) by (intros b1 t (_ & _ & O & _); exact (gp_but fs as_ s t GA O N1 N2 N3 N4)).
  destruct (runs_fold gp_prog tick "i" (EI 0) (EBin Lt (EV "i") (EFld (EV "this") "nvoi"))
    (block [(SStore (EFld (EV "gp") "macro_stress") (EV "i") (EDbl (EI 0)));
 (SFor "j" (EI 0) (EBin Lt (EV "j") (EFld (EV "this") "nvoi")) (SStore (EFld (EV "gp") "macro_stress") (EV "i") (EBin Add (EIdx (EFld (EV "gp") "macro_stress") (EV "i")) (EBin Mul (EIdx (EFld (EV "this") "ctan_lin") (EBin Add (EBin Mul (EV "i") (EFld (EV "this") "nvoi")) (EV "j"))) (EIdx (EFld (EV "gp") "macro_strain") (EV "j"))))))])
    R 0 (nvoi V) 0 (nvoi V) s (tick_all (nvoi V) ltac:(lia))) as (s' & RS & (b1 & OB & LB1 & GB)).
  - exists b. split; [split; [exact KE|splits; auto]|]. split; [exact LB|]. intros; lia.
  - reflexivity.
  - intros m t i (b1 & (K & Y) & B). exists b1. split; [|exact B]. split; [apply kenv_set; [exact K|cbn; intuition discriminate]|exact Y].
  - intros i m t (b1 & OB & _) X. apply (lt_nvoi t fs); [apply OB|exact (GAT _ _ OB)|exact X].
  - intros i m m' t Hi F (b1 & OB & LB1 & GB) X. apply tick_ok in F. destruct F as (-> & ->).
    pose proof (mapM_lget _ _ _ EL i Hi) as ES. unfold sumM in ES.
    set (R2 := fun (acc : T) (t : state) => Clite.env t "i" = Some (VI i) /\ exists b2, on_arr g_env as_ (mem s) (nxt s) b2 t /\ alen b2 = 6 /\ aget b2 i = Some acc /\
      forall j, 0 <= j < i -> aget b2 j = Some (lget sv j)).
    destruct (wr_ok b1 i (ofZ 0) ltac:(lia)) as (b2 & W2 & L2 & G2).
    set (t1 := set_mem t as_ (Some (OD b2))).
    assert (RT1 : runs gp_prog (SStore (EFld (EV "gp") "macro_stress") (EV "i") (EDbl (EI 0))) t (Ok (t1, Nrm))).
    { apply (runs_store gp_prog _ _ _ _ as_ 0 i (VD (ofZ 0)) b1 (ofZ 0) b2); [exact (ev_gp _ _ _ _ (proj1 OB) (GAT _ _ OB) GS)|cbn [eval]; now rewrite X|reflexivity|reflexivity|apply OB|exact W2]. }
    assert (SETM : forall a0 a1 t0, on_arr g_env as_ (mem s) (nxt s) a0 t0 -> on_arr g_env as_ (mem s) (nxt s) a1 (set_mem t0 as_ (Some (OD a1)))).
    { intros a0 a1 t0 (K & M & O & Nx). split; [exact K|]. cbn. rewrite Z.eqb_refl. splits; auto. intros d D. destruct (Z.eqb_spec d as_); [contradiction|auto]. }
    assert (I2 : R2 (ofZ 0) t1).
    { split; [exact X|]. exists b2. split; [exact (SETM _ _ _ OB)|]. split; [lia|]. split; [now rewrite G2, Z.eqb_refl|].
      intros j Hj. rewrite G2. destruct (Z.eqb_spec j i); [lia|]. now apply GB. }
    destruct (runs_fold gp_prog _ "j" (EI 0) (EBin Lt (EV "j") (EFld (EV "this") "nvoi"))
      (SStore (EFld (EV "gp") "macro_stress") (EV "i") (EBin Add (EIdx (EFld (EV "gp") "macro_stress") (EV "i")) (EBin Mul (EIdx (EFld (EV "this") "ctan_lin") (EBin Add (EBin Mul (EV "i") (EFld (EV "this") "nvoi")) (EV "j"))) (EIdx (EFld (EV "gp") "macro_strain") (EV "j")))))
      R2 0 (nvoi V) _ _ t1 ES I2 eq_refl) as (t2 & RT2 & (X2 & b3 & OB3 & L3 & G3 & H3)).
    + intros q t0 j (X0 & b3 & (K & Y) & B). split; [exact X0|]. exists b3. split; [|exact B]. split; [apply kenv_set; [exact K|cbn; intuition discriminate]|exact Y].
    + intros j q t0 (X0 & b3 & O0 & _) Y0. apply (lt_nvoi t0 fs); [apply O0|exact (GAT _ _ O0)|exact Y0].
    + intros j q q' t0 Hj F (X0 & b3 & O0 & L3 & G3 & H3) Y0.
      apply bind_ok in F. destruct F as (z & F & Q). injection Q as <-. apply bind_ok in F. destruct F as (x & Fx & F). apply bind_ok in F. destruct F as (y & Fy & Q). injection Q as <-.
      destruct (wr_ok b3 i (oadd q (omul x y)) ltac:(lia)) as (b4 & W4 & L4 & G4). exists (set_mem t0 as_ (Some (OD b4))).
      pose proof (GAT _ _ O0) as GA0. pose proof (proj1 O0) as K0. apply rd_ok in Fx. apply rd_ok in Fy.
      split; [|split; [|exact Y0]].
      * apply (runs_store gp_prog _ _ _ _ as_ 0 i (VD (oadd q (omul x y))) b3 (oadd q (omul x y)) b4); [exact (ev_gp _ _ _ _ K0 GA0 GS)|cbn [eval]; now rewrite X0| |reflexivity|apply O0|exact W4].
        apply (eval_bin Add _ _ _ (VD q) (VD (omul x y))); [|apply (eval_bin Mul _ _ _ (VD x) (VD y)); [| |reflexivity]|reflexivity].
        { apply (ev_idx _ _ as_ i _ b3 q); [exact (ev_gp _ _ _ _ K0 GA0 GS)|cbn [eval]; now rewrite X0|apply O0|exact G3]. }
        { apply (ev_idx _ _ cl (i * nvoi V + j) _ c x); [|exact (ev_row _ _ _ _ _ _ K0 GA0 X0 Y0)|apply GA0|exact Fx]. apply (ev_this _ _ _ _ K0 GA0). apply GA0. }
        { apply (ev_idx _ _ ae j _ e y); [exact (ev_gp _ _ _ _ K0 GA0 GE)|cbn [eval]; now rewrite Y0|apply GA0|exact Fy]. }
      * split; [exact X0|]. exists b4. split; [exact (SETM _ _ _ O0)|]. split; [lia|]. split; [now rewrite G4, Z.eqb_refl|].
        intros d Hd. rewrite G4. destruct (Z.eqb_spec d i); [lia|]. now apply H3.
    + exists t2. split; [cbn [block]; eapply runs_seq; [exact RT1|exact RT2]|]. split; [|exact X2].
      exists b3. split; [exact OB3|]. split; [exact L3|]. intros d Hd. destruct (Z.eq_dec d i) as [->|]; [exact G3|]. apply H3. lia.
  - destruct OB as (K & M & O & Nx). exists s', b1. splits; auto.
Qed.

Lemma cnt_loop fs (s : state) zi zr : kenv g_env s -> gp_at fs s -> mem s ai = Some (OI zi) -> mem s ar = Some (OD zr) -> alen zi = 7 -> alen zr = 7 ->
  ~ In ai [a_this P; ga; cl; ae; ar] -> ~ In ar [a_this P; ga; cl; ae] ->
  exists s' zi' zr', runs gp_prog s_cnt s (Ok (s', Nrm)) /\ kenv g_env s' /\ mem s' ai = Some (OI zi') /\ mem s' ar = Some (OD zr') /\ alen zi' = 7 /\ alen zr' = 7 /\
    (forall i, 0 <= i <= nvoi V -> aget zi' i = Some 0 /\ aget zr' i = Some (ofZ 0)) /\ (forall d, d <> ai -> d <> ar -> mem s' d = mem s d) /\ nxt s' = nxt s.
Proof.
  intros KE GA MI MR LI LR NI NR. pose proof (nvoi_le V DD) as NV.
  assert (N : ai <> a_this P /\ ai <> ga /\ ai <> cl /\ ai <> ae /\ ai <> ar) by (cbn in NI; intuition). destruct N as (N1 & N2 & N3 & N4 & N0).
  assert (N : ar <> a_this P /\ ar <> ga /\ ar <> cl /\ ar <> ae) by (cbn in NR; intuition). destruct N as (M1 & M2 & M3 & M4).
  set (R := fun (m : Z) (t : state) => kenv g_env t /\ (forall d, d <> ai -> d <> ar -> mem t d = mem s d) /\ nxt t = nxt s /\
    exists z1 z2, mem t ai = Some (OI z1) /\ mem t ar = Some (OD z2) /\ alen z1 = 7 /\ alen z2 = 7 /\ forall i, 0 <= i < m -> aget z1 i = Some 0 /\ aget z2 i = Some (ofZ 0)).
  assert (GAT : forall t, (forall d, d <> ai -> d <> ar -> mem t d = mem s d) -> gp_at fs t).
  { intros t O. destruct GA as (A & B & C & D & E & F & G). unfold gp_at. rewrite !O by congruence. splits; assumption. }
  destruct (runs_fold gp_prog tick "i" (EI 0) (EBin Lt (EV "i") (EBin Add (EI 1) (EFld (EV "this") "nvoi")))
    (block [(SStore (EFld (EV "gp") "nr_its") (EV "i") (EI 0)); (SStore (EFld (EV "gp") "nr_err") (EV "i") (EDbl (EI 0)))])
    R 0 (1 + nvoi V) 0 (1 + nvoi V) s (tick_all (1 + nvoi V) ltac:(lia))) as (s' & RS & (K' & O' & Nx' & z1 & z2 & A1 & A2 & A3 & A4 & A5)).
  - split; [exact KE|]. split; [auto|]. split; [reflexivity|]. exists zi, zr. splits; auto; intros; lia.
  - reflexivity.
  - intros m t i (K & Y). split; [apply kenv_set; [exact K|cbn; intuition discriminate]|exact Y].
  - intros i m t (K & O & _) X. exists (ofb (i <? 1 + nvoi V)). split; [|unfold ofb; now destruct (i <? 1 + nvoi V)].
    eapply eval_bin; [cbn [eval]; now rewrite X|eapply eval_bin; [reflexivity|exact (ev_nvoi t fs K (GAT t O))|reflexivity]|reflexivity].
  - intros i m m' t Hi F (K & O & Nx & z1 & z2 & A1 & A2 & A3 & A4 & A5) X. apply tick_ok in F. destruct F as (-> & ->).
    destruct (wr_ok z1 i 0 ltac:(lia)) as (y1 & W1 & L1 & G1). destruct (wr_ok z2 i (ofZ 0) ltac:(lia)) as (y2 & W2 & L2 & G2).
    set (t1 := set_mem t ai (Some (OI y1))). set (t2 := set_mem t1 ar (Some (OD y2))). exists t2.
    assert (O1 : forall d, d <> ai -> d <> ar -> mem t1 d = mem s d) by (intros d D1 D2; cbn; destruct (Z.eqb_spec d ai); [contradiction|]; now apply O).
    split; [|split; [|exact X]].
    + cbn [block]. apply (runs_seq gp_prog _ _ _ t1).
      * apply (runs_istore gp_prog _ _ _ _ ai 0 i 0 z1 y1); [exact (ev_gp _ _ _ _ K (GAT t O) GI)|cbn [eval]; now rewrite X|reflexivity|exact A1|exact W1].
      * apply (runs_store gp_prog _ _ _ _ ar 0 i (VD (ofZ 0)) z2 (ofZ 0) y2); [exact (ev_gp _ _ _ _ (K : kenv g_env t1) (GAT t1 O1) GR)|cbn [eval]; cbn; now rewrite X|reflexivity|reflexivity| |exact W2].
        cbn. destruct (Z.eqb_spec ar ai); [congruence|exact A2].
    + split; [exact K|]. split.
      { intros d D1 D2. cbn. destruct (Z.eqb_spec d ar); [contradiction|]. destruct (Z.eqb_spec d ai); [contradiction|]. now apply O. }
      split; [exact Nx|]. exists y1, y2. split. { cbn. destruct (Z.eqb_spec ai ar); [congruence|]. now rewrite Z.eqb_refl. }
      split. { cbn. now rewrite Z.eqb_refl. }
      split; [lia|]. split; [lia|]. intros j Hj. rewrite G1, G2. destruct (Z.eqb_spec j i); [auto|]. apply A5. lia.
  - exists s', z1, z2. splits; auto. intros i Hi. apply A5. lia.
Qed.
End At.

Lemma this_keep (V : env T) P fs fs' : (forall f, f <> "inv_max" -> fget fs' f = fget fs f) -> this_in fs V P -> this_in fs' V P.
Proof.
  intros K TI f w I. rewrite K; [exact (TI f w I)|]. intros ->. cbn [In this_flds] in I. repeat (destruct I as [I|I]; [discriminate I|]). exact I.
Qed.

(** the array of the old variables zeroed, src/homogenize.cpp:136-138 *)
Definition s_zero : stmt := (SFor "i" (EI 0) (EBin Lt (EV "i") (EFld (EV "this") "num_int_vars")) (SStore (EFld (EV "this") "vars_old") (EV "i") (EDbl (EI 0)))).
Lemma zero_loop (V : env T) P ga fs (s : state) b : kenv (g_env P ga) s -> mem s (a_this P) = Some (OS fs) -> this_in fs V P ->
  fget fs "num_int_vars" = Some (Some (VI (nvars V))) -> mem s (a_vo P) = Some (OD b) -> 0 <= nvars V <= alen b -> a_vo P <> a_this P ->
  exists s' b', runs gp_prog s_zero s (Ok (s', Nrm)) /\ kenv (g_env P ga) s' /\ mem s' (a_vo P) = Some (OD b') /\ alen b' = alen b /\
    (forall i, 0 <= i < nvars V -> aget b' i = Some (ofZ 0)) /\ (forall d, d <> a_vo P -> mem s' d = mem s d) /\ nxt s' = nxt s.
Proof.
  intros KE MT TI NI MB LB N.
  assert (FV : fget fs "vars_old" = Some (ptr (a_vo P))) by (apply TI; cbn [In this_flds]; tauto).
  assert (ET : forall a t f v, on_arr (g_env P ga) (a_vo P) (mem s) (nxt s) a t -> fget fs f = Some (Some v) -> eval t (EFld (EV "this") f) = Ok v).
  { intros a t f v (K & _ & O & _) F. cbn [eval]. rewrite (K "this" (VP (a_this P) 0)) by (cbn; tauto). cbn [of_option bind]. unfold load_fld. rewrite O by congruence. now rewrite MT, F. }
  destruct (fill gp_prog "i" (g_env P ga) (a_vo P) (mem s) (nxt s) (nvars V) (EBin Lt (EV "i") (EFld (EV "this") "num_int_vars")) (SStore (EFld (EV "this") "vars_old") (EV "i") (EDbl (EI 0)))
    (fun i => i) (fun _ => ofZ 0) b s) as (s' & b' & RS & (K & M & O & Nx) & L & G & _).
  - lia.
  - split; [exact KE|splits; auto].
  - cbn; intuition discriminate.
  - intros; lia.
  - intros; assumption.
  - intros a t i OA X. exists (ofb (i <? nvars V)). split; [|unfold ofb; now destruct (i <? nvars V)].
    eapply eval_bin; [cbn [eval]; now rewrite X|exact (ET _ _ _ _ OA NI)|reflexivity].
  - intros i a0 a1 t Hi OA X W. apply (runs_store gp_prog _ _ _ _ (a_vo P) 0 i (VD (ofZ 0)) a0 (ofZ 0) a1); [exact (ET _ _ _ _ OA FV)|cbn [eval]; now rewrite X|reflexivity|reflexivity|apply OA|exact W].
  - exists s', b'. splits; auto.
Qed.

Ltac ne := first [assumption|apply not_eq_sym; assumption].
Ltac nin := let Q := fresh "Q" in intros Q; cbn [In] in Q; repeat (destruct Q as [Q|Q]; [revert Q; ne|]); exact Q.
Ltac inn := first [left; reflexivity|right; inn].

Lemma nine (t v g c a x s i r : Z) : NoDup [t; v; g; c; a; x; s; i; r] ->
  t <> v /\ t <> g /\ t <> c /\ t <> a /\ t <> x /\ t <> s /\ t <> i /\ t <> r /\ v <> g /\ v <> c /\ v <> a /\ v <> x /\ v <> s /\ v <> i /\ v <> r /\ g <> c /\ g <> a /\ g <> x /\ g <> s /\ g <> i /\ g <> r /\ c <> a /\ c <> x /\ c <> s /\ c <> i /\ c <> r /\ a <> x /\ a <> s /\ a <> i /\ a <> r /\ x <> s /\ x <> i /\ x <> r /\ s <> i /\ s <> r /\ i <> r.
Proof.
  intros N. repeat match goal with H : NoDup (_ :: _) |- _ => inversion_clear H end. cbn [In] in *. splits; intros ->; tauto.
Qed.

(** one pass of the loop of homogenize at a point in the linear range, src/homogenize.cpp:134-161 and 207 *)
Theorem gp_linear_text (V : env T) P ga cl ae ac as_ ai ar k (h : Z -> option obj) fs gs c e vo ct sb zi zr i0 i1 inv sv :
  v_dim V = 2 \/ v_dim V = 3 ->
  NoDup [a_this P; a_vo P; ga; cl; ae; ac; as_; ai; ar] -> Forall (fun a => a < k) [a_this P; a_vo P; ga; cl; ae; ac; as_; ai; ar] ->
  h (a_this P) = Some (OS fs) -> this_in fs V P -> fget fs "ctan_lin" = Some (ptr cl) -> fget fs "num_int_vars" = Some (Some (VI (nvars V))) ->
  fget fs "inv_max" = Some i0 -> fget fs "inv_tol" = Some (Some (VD (v_inv_tol V))) ->
  h ga = Some (OS gs) -> fget gs "macro_strain" = Some (ptr ae) -> fget gs "macro_ctan" = Some (ptr ac) -> fget gs "macro_stress" = Some (ptr as_) ->
  fget gs "nr_its" = Some (ptr ai) -> fget gs "nr_err" = Some (ptr ar) -> fget gs "int_vars_n" = Some (Some VNull) -> fget gs "inv_max" = Some i1 ->
  h cl = Some (OD c) -> h ae = Some (OD e) -> h (a_vo P) = Some (OD vo) -> h ac = Some (OD ct) -> h as_ = Some (OD sb) -> h ai = Some (OI zi) -> h ar = Some (OD zr) ->
  0 <= nvars V <= alen vo -> alen ct = 36 -> alen sb = 6 -> alen zi = 7 -> alen zr = 7 ->
  (forall i, 0 <= i < nvoi V * nvoi V -> exists x, aget c i = Some x) ->
  is_linear V c e inv_min = Ok (true, inv) -> lin_stress V c e = Ok sv ->
  exists st fs' gs' vo' ct' sb' zi' zr', calls gp_prog "homogenize_gp" [VP (a_this P) 0; VP ga 0] h k (Ok (st, Nrm)) /\
    mem st (a_this P) = Some (OS fs') /\ fget fs' "inv_max" = Some (Some (VD inv)) /\ (forall f, f <> "inv_max" -> fget fs' f = fget fs f) /\
    mem st ga = Some (OS gs') /\ fget gs' "inv_max" = Some (Some (VD inv)) /\ (forall f, f <> "inv_max" -> fget gs' f = fget gs f) /\
    mem st (a_vo P) = Some (OD vo') /\ (forall i, 0 <= i < nvars V -> aget vo' i = Some (ofZ 0)) /\
    mem st as_ = Some (OD sb') /\ pvec (nvoi V) sb' sv /\
    mem st ac = Some (OD ct') /\ (forall i, 0 <= i < nvoi V * nvoi V -> aget ct' i = aget c i) /\
    mem st ai = Some (OI zi') /\ mem st ar = Some (OD zr') /\ (forall i, 0 <= i <= nvoi V -> aget zi' i = Some 0 /\ aget zr' i = Some (ofZ 0)) /\
    (forall d, d < k -> ~ In d [a_this P; ga; a_vo P; as_; ac; ai; ar] -> mem st d = h d).
Proof.
  intros DD ND FK MT TI FC FN FM FL MG GE GC GS GI GR GN GM HC HE HV HT HS HI HR LV LT LS LI LR CF EL ES.
  destruct (nine _ _ _ _ _ _ _ _ _ ND) as (Dtv & Dtg & Dtc & Dta & Dtx & Dts & Dti & Dtr & Dvg & Dvc & Dva & Dvx & Dvs & Dvi & Dvr & Dgc & Dga & Dgx & Dgs & Dgi & Dgr & Dca & Dcx & Dcs & Dci & Dcr & Dax & Das & Dai & Dar & Dxs & Dxi & Dxr & Dsi & Dsr & Dir). clear ND.
  rewrite Forall_forall in FK.
  assert (KT : a_this P < k) by (apply FK; cbn; tauto). assert (KV : a_vo P < k) by (apply FK; cbn; tauto). assert (KG : ga < k) by (apply FK; cbn; tauto).
  assert (KC : cl < k) by (apply FK; cbn; tauto). assert (KA : ae < k) by (apply FK; cbn; tauto). assert (KX : ac < k) by (apply FK; cbn; tauto).
  assert (KS : as_ < k) by (apply FK; cbn; tauto). assert (KI : ai < k) by (apply FK; cbn; tauto). assert (KR : ar < k) by (apply FK; cbn; tauto). clear FK.
  set (s0 := mkSt (fun y : string => if String.eqb y "gp" then Some (@VP T ga 0) else if String.eqb y "this" then Some (VP (a_this P) 0) else None) h k).
  assert (K0 : kenv (g_env P ga) s0) by (intros x v I; cbn in I; destruct I as [[= <- <-]|[[= <- <-]|[]]]; reflexivity).
  destruct (zero_loop V P ga fs s0 vo K0 MT TI FN HV LV ltac:(ne)) as (s1 & vo' & R1 & K1 & M1 & L1 & G1 & O1 & N1).
  assert (T1 : mem s1 (a_this P) = Some (OS fs)) by (rewrite O1; [exact MT|ne]).
  set (fs1 := fset fs "inv_max" (VD (oopp (ofZ 10000000000)))). set (s2 := set_mem s1 (a_this P) (Some (OS fs1))).
  assert (FF : forall f, f <> "inv_max" -> fget fs1 f = fget fs f).
  { intros f NF. unfold fs1. rewrite fget_fset. destruct (String.eqb_spec f "inv_max"); [contradiction|reflexivity]. }
  assert (FI : fget fs1 "inv_max" = Some (Some (VD inv_min))) by (unfold fs1; rewrite fget_fset; cbn [String.eqb Ascii.eqb Bool.eqb]; now rewrite FM).
  assert (R2 : runs gp_prog (SFld (EV "this") "inv_max" (ENeg (EDbl (EI 10000000000)))) s1 (Ok (s2, Nrm))).
  { apply (runs_fld gp_prog _ _ _ _ (a_this P) fs i0); [cbn [eval]; now rewrite (K1 "this" (VP (a_this P) 0)) by (cbn; tauto)|reflexivity|exact T1|exact FM]. }
  assert (K2 : kenv (g_env P ga) s2) by exact K1.
  assert (N2 : nxt s2 = k) by exact N1.
  assert (T2 : mem s2 (a_this P) = Some (OS fs1)) by (cbn; now rewrite Z.eqb_refl).
  assert (O2 : forall d, d <> a_this P -> d <> a_vo P -> mem s2 d = h d).
  { intros d D1 D2. cbn. destruct (Z.eqb_spec d (a_this P)); [contradiction|]. now apply O1. }
  assert (Y2 : forall d, In d [ga; cl; ae; ac; as_; ai; ar] -> mem s2 d = h d).
  { intros d ID. cbn [In] in ID. apply O2; (repeat (destruct ID as [<-|ID]; [ne|])); destruct ID. }
  assert (V2 : mem s2 (a_vo P) = Some (OD vo')) by (cbn; destruct (Z.eqb_spec (a_vo P) (a_this P)); [congruence|exact M1]).
  pose proof (this_keep V P fs fs1 FF TI) as TI1.
  destruct (is_linear_text V P k (mem s2) fs1 DD T2 TI1 cl ae c e inv_min (conj KT (conj KC KA))
    ltac:(rewrite FF by discriminate; exact FC) FI ltac:(rewrite FF by discriminate; exact FL) ltac:(rewrite Y2 by inn; exact HC) ltac:(rewrite Y2 by inn; exact HE) true inv EL)
    as (st & fs2 & CL & T3 & I3 & F3 & O3).
  set (s3 := set_env (mkSt (Clite.env s2) (mem st) (nxt st)) "ret" (VI 1)).
  assert (R3 : runs gp_prog (SCallR "ret" "is_linear" [(EV "this"); (EFld (EV "gp") "macro_strain")]) s2 (Ok (s3, Nrm))).
  { apply (runs_callsR gp_prog "ret" "is_linear" _ s2 [VP (a_this P) 0; VP ae 0] st (VI 1)).
    - cbn [mapM eval]. rewrite (K2 "this" (VP (a_this P) 0)) by (cbn; tauto). rewrite (K2 "gp" (VP ga 0)) by (cbn; tauto). cbn [of_option bind]. unfold load_fld.
      rewrite Y2 by inn. rewrite MG, GE. reflexivity.
    - rewrite N2. apply calls_hom. exact CL. }
  assert (K3 : kenv (g_env P ga) s3) by (apply (kenv_set _ (mkSt (Clite.env s2) (mem st) (nxt st))); [exact K2|cbn; intuition discriminate]).
  assert (X3 : Clite.env s3 "ret" = Some (VI 1)) by reflexivity.
  assert (Y3 : forall d, In d [ga; cl; ae; ac; as_; ai; ar] -> mem s3 d = h d).
  { intros d ID. rewrite <- (Y2 d ID). apply O3; [cbn [In] in ID; destruct ID as [<-|[<-|[<-|[<-|[<-|[<-|[<-|[]]]]]]]]; assumption|].
    cbn [In] in ID. (repeat (destruct ID as [<-|ID]; [ne|])). destruct ID. }
  assert (V3 : mem s3 (a_vo P) = Some (OD vo')) by (rewrite <- V2; apply O3; [exact KV|ne]).
  assert (F4 : forall f, f <> "inv_max" -> fget fs2 f = fget fs f) by (intros f NF; now rewrite F3, FF).
  assert (GA : gp_at V P ga cl ae c e gs fs2 s3).
  { split; [exact T3|]. split; [exact (this_keep V P fs fs2 F4 TI)|]. split; [now rewrite F4 by discriminate|]. split; [now rewrite F4 by discriminate|].
    split; [rewrite Y3 by inn; exact MG|]. split; rewrite Y3 by inn; assumption. }
  destruct (stress_loop V P ga cl ae as_ ar c e gs DD GE GS fs2 s3 sb sv K3 GA ltac:(rewrite Y3 by inn; exact HS) LS
    ltac:(nin) ES) as (s4 & sb' & R4 & K4 & M4 & L4 & G4 & O4 & N4).
  assert (GA4 : gp_at V P ga cl ae c e gs fs2 s4) by (apply (gp_but V P ga cl ae c e gs fs2 as_ s3 s4 GA O4); ne).
  destruct (ctan_loop V P ga cl ae ac ar c e gs DD GC fs2 s4 ct K4 GA4 ltac:(rewrite O4 by (ne); rewrite Y3 by inn; exact HT) LT
    ltac:(nin) CF) as (s5 & ct' & R5 & K5 & M5 & L5 & G5 & O5 & N5).
  assert (GA5 : gp_at V P ga cl ae c e gs fs2 s5) by (apply (gp_but V P ga cl ae c e gs fs2 ac s4 s5 GA4 O5); ne).
  destruct (cnt_loop V P ga cl ae ai ar c e gs DD GI GR fs2 s5 zi zr K5 GA5
    ltac:(rewrite O5 by (ne); rewrite O4 by (ne); rewrite Y3 by inn; exact HI)
    ltac:(rewrite O5 by (ne); rewrite O4 by (ne); rewrite Y3 by inn; exact HR) LI LR
    ltac:(nin) ltac:(nin)) as (s6 & zi' & zr' & R6 & K6 & M6 & M7 & L6 & L7 & G6 & O6 & N6).
  assert (O456 : forall d, d <> as_ -> d <> ac -> d <> ai -> d <> ar -> mem s6 d = mem s3 d) by (intros d D1 D2 D3 D4; now rewrite O6, O5, O4).
  assert (T6 : mem s6 (a_this P) = Some (OS fs2)) by (rewrite O456; [exact T3| | | |]; ne).
  assert (MG6 : mem s6 ga = Some (OS gs)) by (rewrite O456; [rewrite Y3 by inn; exact MG| | | |]; ne).
  set (gs' := fset gs "inv_max" (VD inv)). set (s7 := set_mem s6 ga (Some (OS gs'))).
  assert (R7 : runs gp_prog (SFld (EV "gp") "inv_max" (EFld (EV "this") "inv_max")) s6 (Ok (s7, Nrm))).
  { apply (runs_fld gp_prog _ _ _ _ ga gs i1); [cbn [eval]; now rewrite (K6 "gp" (VP ga 0)) by (cbn; tauto)| |exact MG6|exact GM].
    cbn [eval]. rewrite (K6 "this" (VP (a_this P) 0)) by (cbn; tauto). cbn [of_option bind]. unfold load_fld. now rewrite T6, I3. }
  assert (M8 : forall d, d <> ga -> mem s7 d = mem s6 d) by (intros d D; cbn; destruct (Z.eqb_spec d ga); [contradiction|reflexivity]).
  exists s7, fs2, gs', vo', ct', sb', zi', zr'. split.
  { change (runs gp_prog (f_body ast_homogenize_gp) s0 (Ok (s7, Nrm))).
    cbn [f_body ast_homogenize_gp block]. apply (runs_seq gp_prog _ _ _ s1).
    { apply (runs_if gp_prog _ _ _ _ (VI 1) true); [|reflexivity|exact R1].
      apply (eval_bin Eq _ _ _ VNull VNull); [|reflexivity|reflexivity].
      cbn [eval]. rewrite (K0 "gp" (VP ga 0)) by (cbn; tauto). cbn [of_option bind]. unfold load_fld. cbn [mem s0]. now rewrite MG, GN. }
    apply (runs_seq gp_prog _ _ _ s2); [exact R2|]. apply (runs_seq gp_prog _ _ _ s3); [exact R3|]. apply (runs_seq gp_prog _ _ _ s6); [|exact R7].
    apply (runs_if gp_prog _ _ _ _ (VI 1) true); [|reflexivity|].
    { cbn [eval]. rewrite X3. cbn [of_option bind]. rewrite (K3 "gp" (VP ga 0)) by (cbn; tauto). cbn [of_option bind]. unfold load_fld.
      rewrite Y3 by inn. rewrite MG, GN. reflexivity. }
    apply (runs_seq gp_prog _ _ _ s4); [exact R4|]. apply (runs_seq gp_prog _ _ _ s5); [exact R5|exact R6]. }
  assert (NG : forall x, ga <> x -> mem s7 x = mem s6 x) by (intros x Q; apply M8; congruence).
  split; [rewrite M8; [exact T6|ne]|]. split; [exact I3|]. split; [exact F4|].
  split; [cbn; now rewrite Z.eqb_refl|]. split; [unfold gs'; rewrite fget_fset; cbn [String.eqb Ascii.eqb Bool.eqb]; now rewrite GM|].
  split. { intros f NF. unfold gs'. rewrite fget_fset. destruct (String.eqb_spec f "inv_max"); [contradiction|reflexivity]. }
  split. { rewrite M8 by (ne). rewrite O456; [exact V3| | | |]; ne. }
  split; [exact G1|].
  split. { rewrite M8 by (ne). rewrite O6 by (ne). rewrite O5 by (ne). exact M4. }
  split; [exact G4|].
  split. { rewrite M8 by (ne). rewrite O6 by (ne). exact M5. }
  split; [exact G5|].
  split. { rewrite M8 by (ne). exact M6. }
  split. { rewrite M8 by (ne). exact M7. }
  split; [exact G6|].
  intros d DK NI. cbn [In] in NI. rewrite M8 by (intros Q; apply NI; auto). rewrite O456 by (intros Q; apply NI; auto 10).
  transitivity (mem s2 d); [apply O3; [exact DK|intros Q; apply NI; auto]|]. apply O2; intros Q; apply NI; auto.
Qed.

(** one pass of the loop of update_vars, src/homogenize.cpp:214-216 *)
Theorem gp_update_text (V : env T) P ga k (h : Z -> option obj) fs gs : a_this P <> ga ->
  h (a_this P) = Some (OS fs) -> fget fs "num_int_vars" = Some (Some (VI (nvars V))) -> h ga = Some (OS gs) ->
  (fget gs "int_vars_n" = Some (Some VNull) ->
     exists st, calls gp_prog "update_gp" [VP (a_this P) 0; VP ga 0] h k (Ok (st, Nrm)) /\ mem st = h /\ nxt st = k) /\
  (forall bn bk n kk, fget gs "int_vars_n" = Some (ptr bn) -> fget gs "int_vars_k" = Some (ptr bk) -> h bn = Some (OD n) -> h bk = Some (OD kk) ->
     bn <> bk -> 0 <= nvars V <= alen n -> (forall i, 0 <= i < nvars V -> exists x, aget kk i = Some x) ->
     exists st n', calls gp_prog "update_gp" [VP (a_this P) 0; VP ga 0] h k (Ok (st, Nrm)) /\ mem st bn = Some (OD n') /\ alen n' = alen n /\
       (forall i, 0 <= i < nvars V -> aget n' i = aget kk i) /\ (forall i, ~ 0 <= i < nvars V -> aget n' i = aget n i) /\
       (forall d, d <> bn -> mem st d = h d) /\ nxt st = k).
Proof.
  intros NE MT FN MG.
  set (s0 := mkSt (fun y : string => if String.eqb y "gp" then Some (@VP T ga 0) else if String.eqb y "this" then Some (VP (a_this P) 0) else None) h k).
  assert (K0 : kenv (g_env P ga) s0) by (intros x v I; cbn in I; destruct I as [[= <- <-]|[[= <- <-]|[]]]; reflexivity).
  split.
  { intros GN. exists s0. split; [|auto]. change (runs gp_prog (f_body ast_update_gp) s0 (Ok (s0, Nrm))). cbn [f_body ast_update_gp].
    apply (runs_if gp_prog _ _ _ _ (VI 0) false); [|reflexivity|apply runs_skip].
    apply (eval_bin Ne _ _ _ VNull VNull); [|reflexivity|reflexivity].
    cbn [eval]. rewrite (K0 "gp" (VP ga 0)) by (cbn; tauto). cbn [of_option bind]. unfold load_fld. cbn [mem s0]. now rewrite MG, GN. }
  intros bn bk n kk GN GK HN HK NB LN FK.
  assert (NT : bn <> a_this P) by congruence. assert (NG : bn <> ga) by congruence.
  set (v := fun i : Z => match aget kk i with Some x => x | None => ofZ 0 end).
  assert (EG : forall a t f w, on_arr (g_env P ga) bn h k a t -> fget gs f = Some (Some w) -> eval t (EFld (EV "gp") f) = Ok w).
  { intros a t f w (K & _ & O & _) F. cbn [eval]. rewrite (K "gp" (VP ga 0)) by (cbn; tauto). cbn [of_option bind]. unfold load_fld. rewrite O by congruence. now rewrite MG, F. }
  destruct (fill gp_prog "i" (g_env P ga) bn h k (nvars V) (EBin Lt (EV "i") (EFld (EV "this") "num_int_vars")) (SStore (EFld (EV "gp") "int_vars_n") (EV "i") (EIdx (EFld (EV "gp") "int_vars_k") (EV "i")))
    (fun i => i) v n s0) as (s' & n' & RS & (K & M & O & Nx) & L & G & FR).
  - lia.
  - split; [exact K0|splits; auto].
  - cbn; intuition discriminate.
  - intros; lia.
  - intros; assumption.
  - intros a t i (Kt & _ & Ot & _) X. exists (ofb (i <? nvars V)). split; [|unfold ofb; now destruct (i <? nvars V)].
    apply (eval_bin Lt _ _ _ (VI i) (VI (nvars V))); [cbn [eval]; now rewrite X| |reflexivity].
    cbn [eval]. rewrite (Kt "this" (VP (a_this P) 0)) by (cbn; tauto). cbn [of_option bind]. unfold load_fld. rewrite Ot by congruence. now rewrite MT, FN.
  - intros i a0 a1 t Hi OA X W. destruct (FK i Hi) as (x & Ex). unfold v in W. rewrite Ex in W.
    apply (runs_store gp_prog _ _ _ _ bn 0 i (VD x) a0 x a1); [exact (EG _ _ _ _ OA GN)|cbn [eval]; now rewrite X| |reflexivity|apply OA|exact W].
    apply (ev_idx _ _ bk i _ kk x); [exact (EG _ _ _ _ OA GK)|cbn [eval]; now rewrite X| |exact Ex]. destruct OA as (_ & _ & OA & _). rewrite OA by congruence. exact HK.
  - exists s', n'. split.
    { change (runs gp_prog (f_body ast_update_gp) s0 (Ok (s', Nrm))). cbn [f_body ast_update_gp].
      apply (runs_if gp_prog _ _ _ _ (VI 1) true); [|reflexivity|exact RS].
      apply (eval_bin Ne _ _ _ (VP bn 0) VNull); [|reflexivity|reflexivity].
      cbn [eval]. rewrite (K0 "gp" (VP ga 0)) by (cbn; tauto). cbn [of_option bind]. unfold load_fld. cbn [mem s0]. now rewrite MG, GN. }
    split; [exact M|]. split; [exact L|]. split.
    { intros i Hi. rewrite G by exact Hi. unfold v. destruct (FK i Hi) as (x & ->). reflexivity. }
    split; [|split; [exact O|exact Nx]]. intros i Hi. apply FR. intros j Hj ->. contradiction.
Qed.
End Gp.
