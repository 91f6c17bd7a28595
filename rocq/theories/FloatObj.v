(** Objects in doubles: the answers of the interface against the effective stiffness of the exact body. *)
From Coq Require Import Reals Lra ZifyBool ZifyNat.
From Flocq Require Import BinarySingleNaN.
From Verif Require Import Base Scalar MonoBody ConvexMin EllSpec EllInit EllAsm EllFinal Grid CgPure CgProps AssemblyModel AsmPure AsmBnd AsmRun AsmSpec AsmProps AsmEquil AsmPoint FemGen FemAve FemRhs FemEquil AsmMat FemPd
  MicroModel OutputModel NewtonBase ApiBase ApiRun ApiHist Build ApiExact ApiSpec ApiProps Tangent KornProps EffBound BinInst FloatSum FloatCg FloatFem FloatBody FloatMat FloatNewton FloatBnd FloatShadow FloatAnswer FloatFin FloatSize.
Open Scope Z_scope.
Open Scope R_scope.
Notation val := (@B2R 53 1024).

(** arguments of a constructor whose sizes and moduli are far from the ends of the range of doubles *)
Record fair_args (dim nx ny nz : Z) (mp ps : list flt) (H L M : R) : Prop := {
  fa_x : fair_side (lget mp 0) nx; fa_y : fair_side (lget mp 1) ny; fa_z : dim = 3%Z -> fair_side (lget mp 2) nz;
  fa_hx : IZR (nx - 1) / val (lget mp 0) <= H; fa_hy : IZR (ny - 1) / val (lget mp 1) <= H; fa_hz : dim = 3%Z -> IZR (nz - 1) / val (lget mp 2) <= H;
  fa_lx : val (lget mp 0) <= L; fa_ly : val (lget mp 1) <= L; fa_lz : dim = 3%Z -> val (lget mp 2) <= L;
  fa_ps : forall i, (i = 0 \/ i = 10)%Z -> fin (lget ps i) /\ fin (lget ps (i + 1)) /\ p2 (-90) <= val (lget ps i) /\ -1 < val (lget ps (i + 1)) < 1 / 2;
  fa_M : M <= p2 100 }.
Lemma mat_cases {T} `{Ops T} dim nx ny nz mtype mp mt ps (tol : T) V e : env_of dim nx ny nz mtype mp mt ps tol V -> exists t0 t1 r, mt = t0 :: t1 :: r /\
  (mat_at V e = mat_i t0 ps 0 \/ mat_at V e = mat_i t1 ps 1).
Proof.
  intros E. destruct (eo_mats _ _ _ _ _ _ _ _ _ _ E) as (t0 & t1 & r & Em & Ev). exists t0, t1, r. split; [exact Em|]. unfold mat_at. rewrite Ev.
  destruct (aget (v_etype V) e) as [[| |]|]; cbn; auto.
Qed.
Lemma linear_obj {T} `{Ops T} dim nx ny nz mtype mp mt ps (tol : T) V : env_of dim nx ny nz mtype mp mt ps tol V -> no_plastic mt -> linear V.
Proof.
  intros E (s0 & s1 & r' & Em & H0 & H1) e _. unfold plastic_at. destruct (mat_cases _ _ _ _ _ _ _ _ _ _ e E) as (t0 & t1 & r & Em' & C).
  rewrite Em in Em'. injection Em' as <- <- <-. destruct C as [-> | ->]; unfold mat_i, the_mat; cbn [m_plast]; [destruct H0 as [-> | ->]|destruct H1 as [-> | ->]]; reflexivity.
Qed.
Section Args.
Variables (dim nx ny nz mtype : Z) (mp : list flt) (mt : list Z) (ps : list flt) (tol : flt) (V : env flt) (H L m M : R).
Hypothesis EV : env_of dim nx ny nz mtype mp mt ps tol V.
Hypothesis S : sane V.
Hypothesis FA : fair_args dim nx ny nz mp ps H L M.
Lemma mat_fair t i : (i = 0 \/ i = 1)%Z -> val (lget ps (i * 10)) / (1 + val (lget ps (i * 10 + 1))) <= M ->
  val (lget ps (i * 10)) / ((1 + val (lget ps (i * 10 + 1))) * (1 - 2 * val (lget ps (i * 10 + 1)))) <= M -> computed (mat_i t ps i) /\ fair_mat (mat_i t ps i) M.
Proof.
  intros Hi H1 H2. destruct (fa_ps _ _ _ _ _ _ _ _ _ FA (i * 10) ltac:(lia)) as (A & B & C & N).
  split; [unfold mat_i, computed; eauto 6|]. unfold mat_i, the_mat. constructor; cbn [m_E m_nu]; try assumption. exact (fa_M _ _ _ _ _ _ _ _ _ FA).
Qed.
Lemma fair_of : (dim = 3%Z -> no_plastic mt) -> (forall i, (i = 0 \/ i = 10)%Z -> val (lget ps i) / (1 + val (lget ps (i + 1))) <= M /\
    val (lget ps i) / ((1 + val (lget ps (i + 1))) * (1 - 2 * val (lget ps (i + 1)))) <= M) -> fair V H M.
Proof.
  intros NP Mo. pose proof (eo_dim _ _ _ _ _ _ _ _ _ _ EV) as ED. pose proof (eo_nx _ _ _ _ _ _ _ _ _ _ EV) as EX. pose proof (eo_ny _ _ _ _ _ _ _ _ _ _ EV) as EY.
  pose proof (eo_nz _ _ _ _ _ _ _ _ _ _ EV) as EZ. pose proof (eo_lx _ _ _ _ _ _ _ _ _ _ EV) as LX. pose proof (eo_ly _ _ _ _ _ _ _ _ _ _ EV) as LY. pose proof (eo_lz _ _ _ _ _ _ _ _ _ _ EV) as LZ.
  assert (Z3 : v_dim V = 3%Z -> dim = 3%Z /\ v_nz V = nz /\ v_lz V = lget mp 2). { intros D. rewrite ED in D. rewrite EZ, LZ, D. repeat split; exact D. }
  constructor.
  - exact S.
  - rewrite LX, EX. exact (fa_x _ _ _ _ _ _ _ _ _ FA).
  - rewrite LY, EY. exact (fa_y _ _ _ _ _ _ _ _ _ FA).
  - intros D. destruct (Z3 D) as (D3 & -> & ->). exact (fa_z _ _ _ _ _ _ _ _ _ FA D3).
  - rewrite EX. exact (eo_dx _ _ _ _ _ _ _ _ _ _ EV).
  - rewrite EY. exact (eo_dy _ _ _ _ _ _ _ _ _ _ EV).
  - intros D. exact (eo_dz _ _ _ _ _ _ _ _ _ _ EV).
  - rewrite LX, EX. exact (fa_hx _ _ _ _ _ _ _ _ _ FA).
  - rewrite LY, EY. exact (fa_hy _ _ _ _ _ _ _ _ _ FA).
  - intros D. destruct (Z3 D) as (D3 & -> & ->). exact (fa_hz _ _ _ _ _ _ _ _ _ FA D3).
  - intros e He. destruct (mat_cases _ _ _ _ _ _ _ _ _ _ e EV) as (t0 & t1 & r & _ & C). destruct (Mo 0%Z (or_introl eq_refl)) as (M1 & M2). destruct (Mo 10%Z (or_intror eq_refl)) as (M3 & M4).
    destruct C as [-> | ->]; [apply (mat_fair t0 0 (or_introl eq_refl)); assumption|apply (mat_fair t1 1 (or_intror eq_refl)); assumption].
  - intros D. destruct (Z3 D) as (D3 & _). exact (linear_obj _ _ _ _ _ _ _ _ _ _ EV (NP D3)).
Qed.
Lemma exact_mat_of t i : exact_mat (mat_i t ps i) = let E := val (lget ps (i * 10)) in let nu := val (lget ps (i * 10 + 1)) in
  mkMat E nu (E / (3 * (1 - 2 * nu))) (E / (2 * (1 + nu))) (nu * E / ((1 + nu) * (1 - 2 * nu))) (val (lget ps (i * 10 + 3))) (val (lget ps (i * 10 + 2))) (fst (flags t)) (snd (flags t)).
Proof. reflexivity. Qed.
Lemma stiff_of3 : moduli3 (map val ps) m M -> stiff3 (exact_env V) m M.
Proof.
  intros Mo ex ey ez a Hc Hm. rewrite <- (cell_mat_at (exact_env V) ex ey ez a Hm), exact_at by exact S. destruct (mat_cases _ _ _ _ _ _ _ _ _ _ (ix3 (exact_env V) (ex, ey, ez)) EV) as (t0 & t1 & r & _ & C).
  pose proof (Mo 0 (or_introl eq_refl))%Z as M0. pose proof (Mo 10 (or_intror eq_refl))%Z as M1. cbv zeta in M0, M1. rewrite !lget_vals in M0, M1.
  destruct (fa_ps _ _ _ _ _ _ _ _ _ FA 0 ltac:(lia))%Z as (_ & _ & _ & N0). destruct (fa_ps _ _ _ _ _ _ _ _ _ FA 10 ltac:(lia))%Z as (_ & _ & _ & N1).
  destruct C as [-> | ->]; rewrite exact_mat_of; cbv zeta; cbn [m_mu m_lambda]; [change (0 * 10)%Z with 0%Z|change (1 * 10)%Z with 10%Z].
  - set (E := val (lget ps 0)) in *. set (nu := val (lget ps (0 + 1))) in *.
    replace (2 * (E / (2 * (1 + nu)))) with (E / (1 + nu)) by (field; lra).
    replace (3 * (nu * E / ((1 + nu) * (1 - 2 * nu)) + E / (1 + nu) / 3)) with (E / (1 - 2 * nu)) by (field; lra). exact M0.
  - set (E := val (lget ps 10)) in *. set (nu := val (lget ps (10 + 1))) in *.
    replace (2 * (E / (2 * (1 + nu)))) with (E / (1 + nu)) by (field; lra).
    replace (3 * (nu * E / ((1 + nu) * (1 - 2 * nu)) + E / (1 + nu) / 3)) with (E / (1 - 2 * nu)) by (field; lra). exact M1.
Qed.
Lemma stiff_of2 : moduli2 (map val ps) m M -> stiff2 (exact_env V) m M.
Proof.
  intros Mo ex ey a Hc Hm. rewrite <- (cell_mat_at (exact_env V) ex ey 0 a Hm), exact_at by exact S. destruct (mat_cases _ _ _ _ _ _ _ _ _ _ (ix3 (exact_env V) (ex, ey, 0%Z)) EV) as (t0 & t1 & r & _ & C).
  pose proof (Mo 0 (or_introl eq_refl))%Z as M0. pose proof (Mo 10 (or_intror eq_refl))%Z as M1. cbv zeta in M0, M1. rewrite !lget_vals in M0, M1.
  destruct (fa_ps _ _ _ _ _ _ _ _ _ FA 0 ltac:(lia))%Z as (_ & _ & _ & N0). destruct (fa_ps _ _ _ _ _ _ _ _ _ FA 10 ltac:(lia))%Z as (_ & _ & _ & N1).
  destruct C as [-> | ->]; rewrite exact_mat_of; cbv zeta; cbn [m_mu m_lambda]; [change (0 * 10)%Z with 0%Z|change (1 * 10)%Z with 10%Z].
  - set (E := val (lget ps 0)) in *. set (nu := val (lget ps (0 + 1))) in *.
    replace (2 * (E / (2 * (1 + nu)))) with (E / (1 + nu)) by (field; lra).
    replace (2 * (nu * E / ((1 + nu) * (1 - 2 * nu)) + E / (2 * (1 + nu)))) with (E / ((1 + nu) * (1 - 2 * nu))) by (field; lra). exact M0.
  - set (E := val (lget ps 10)) in *. set (nu := val (lget ps (10 + 1))) in *.
    replace (2 * (E / (2 * (1 + nu)))) with (E / (1 + nu)) by (field; lra).
    replace (2 * (nu * E / ((1 + nu) * (1 - 2 * nu)) + E / (2 * (1 + nu)))) with (E / ((1 + nu) * (1 - 2 * nu))) by (field; lra). exact M1.
Qed.
Lemma two3 : moduli3 (map val ps) m M -> forall i, (i = 0 \/ i = 10)%Z -> val (lget ps i) / (1 + val (lget ps (i + 1))) <= M /\
    val (lget ps i) / ((1 + val (lget ps (i + 1))) * (1 - 2 * val (lget ps (i + 1)))) <= M.
Proof.
  intros Mo i Hi. pose proof (Mo i Hi) as M0. cbv zeta in M0. rewrite !lget_vals in M0. destruct (fa_ps _ _ _ _ _ _ _ _ _ FA i Hi) as (_ & _ & _ & N0).
  set (E := val (lget ps i)) in *. set (nu := val (lget ps (i + 1))) in *. split; [lra|].
  replace (E / ((1 + nu) * (1 - 2 * nu))) with ((2 * (E / (1 - 2 * nu)) + E / (1 + nu)) / 3) by (field; lra). lra.
Qed.
Lemma two2 : moduli2 (map val ps) m M -> forall i, (i = 0 \/ i = 10)%Z -> val (lget ps i) / (1 + val (lget ps (i + 1))) <= M /\
    val (lget ps i) / ((1 + val (lget ps (i + 1))) * (1 - 2 * val (lget ps (i + 1)))) <= M.
Proof. intros Mo i Hi. pose proof (Mo i Hi) as M0. cbv zeta in M0. rewrite !lget_vals in M0. lra. Qed.
End Args.

(** the strain given to the solver is the caller's *)
Lemma given_strain (V : env flt) g e : sane V -> strain_is V g e -> forall v, (0 <= v < nvoi V)%Z -> lget (map (oval (g_strain g)) (zrange 0 (nvoi V))) v = lget e v.
Proof.
  intros S Q v Hv. change (map (oval (g_strain g)) (zrange 0 (nvoi V))) with (ltab (nvoi V) (oval (g_strain g))). rewrite lget_ltab by exact Hv. unfold oval. now rewrite (Q v Hv).
Qed.
Lemma given_small (V : env flt) g e em : sane V -> strain_is V g e -> 0 <= em -> (forall v, (0 <= v < nvoi V)%Z -> Rabs (val (lget e v)) <= em) ->
  forall v, (0 <= v < 6)%Z -> Rabs (val (lget (map (oval (g_strain g)) (zrange 0 (nvoi V))) v)) <= em.
Proof.
  intros S Q Pe He v Hv. destruct (Z_lt_ge_dec v (nvoi V)) as [A|A]; [rewrite (given_strain V g e S Q v) by lia; apply He; lia|].
  unfold lget. rewrite nth_overflow by (rewrite map_length, length_zrange; lia). rewrite val_0, Rabs_R0. exact Pe.
Qed.

Lemma given_fin (V : env flt) g e : sane V -> strain_is V g e -> (forall v, (0 <= v < nvoi V)%Z -> fin (lget e v)) ->
  forall v, (0 <= v < 6)%Z -> fin (lget (map (oval (g_strain g)) (zrange 0 (nvoi V))) v).
Proof.
  intros S Q He v Hv. destruct (Z_lt_ge_dec v (nvoi V)) as [A|A]; [rewrite (given_strain V g e S Q v) by lia; apply He; lia|].
  unfold lget. rewrite nth_overflow by (rewrite map_length, length_zrange; lia). exact (proj1 (bd_zero 0)).
Qed.

Section Three.
Variables (fuel0 : nat) (q0 : Z -> peek) (j : junk flt) (nx ny nz mtype : Z) (mp : list flt) (mt : list Z) (ps : list flt) (o0 : obj flt) (H L m M : R).
Hypothesis A : valid_args 3 nx ny nz mtype mp mt ps.
Hypothesis J : total_junk j.
Hypothesis C : construct fuel0 q0 j 3 [nx; ny; nz] mtype mp mt ps = Ok o0.
Hypothesis FA : fair_args 3 nx ny nz mp ps H L M.
Hypothesis NP : no_plastic mt.
Hypothesis Hm : 0 < m.
Hypothesis Mo : moduli3 (map val ps) m M.
Local Notation V := (o_env o0).
Local Notation W := (exact_env (o_env o0)).
Local Notation cells := (IZR ((nx - 1) * (ny - 1) * (nz - 1))).
Local Notation N := (nx * ny * nz * 3)%Z.
Hypothesis G : gam (S (Z.to_nat N)) <= / 2.
Hypothesis Th : theta3 V H M m + gam 12 <= / 2.
Lemma built3 : sane V /\ (exists tol, env_of 3 nx ny nz mtype mp mt ps tol V) /\ fair V H M /\ stiff3 W m M /\ v_dim V = 3%Z /\ ndofs V = N /\ 0 <= M.
Proof.
  pose proof (construct_ok fuel0 q0 j 3 nx ny nz mtype mp mt ps A J) as Q. rewrite C in Q. destruct Q as ((Ko & _) & (tol & _ & EV) & _). pose proof (ok_sane o0 Ko) as Sv.
  split; [exact Sv|]. split; [now exists tol|].
  split; [exact (fair_of 3 nx ny nz mtype mp mt ps tol V H L M EV Sv FA (fun _ => NP) (two3 3 nx ny nz mp ps H L m M FA Mo))|].
  split; [exact (stiff_of3 3 nx ny nz mtype mp mt ps tol V H L m M EV Sv FA Mo)|]. assert (D : v_dim V = 3%Z) by exact (eo_dim _ _ _ _ _ _ _ _ _ _ EV). split; [exact D|].
  split; [|pose proof (Mo 0 (or_introl eq_refl))%Z as M0; cbv zeta in M0; lra].
  rewrite (ndofs_eq3 V D), (eo_nx _ _ _ _ _ _ _ _ _ _ EV), (eo_ny _ _ _ _ _ _ _ _ _ _ EV), (eo_nz _ _ _ _ _ _ _ _ _ _ EV). reflexivity.
Qed.
(** 4608 (H H M) times the volume of a cell, and the number of roundings behind a stress *)
Definition stress_gap3 (V : env flt) (H L M m em : R) (er : flt) : R :=
  let W := exact_env V in let nb := norm_bound (ndofs V) er in
  spread (ndofs V) (sqrt (10 * (IZR ((v_nx W - 1) * (v_ny W - 1) * (v_nz W - 1)) * M) / m)) (103 + length (els3 V)) (v_ly W) (v_lz W) M H nb (size3 V M L em m nb) 4608 (v_dx W * v_dy W * v_dz W).
Theorem double_answers3 : exists K : Z -> Z -> R, (forall v i, (0 <= v < 6)%Z -> (0 <= i < 6)%Z -> K v i = K i v) /\
  (forall e u vo b s, state3 W e u vo b 0 s -> forall v, (0 <= v < 6)%Z -> lget s v = dot 6 (K v) (lget e)) /\
  forall cs o fs fuel q id e o' fs' r em g, reaches o0 cs o fs -> last_set id e cs -> p2 (-40) <= em <= p2 100 -> (forall v, (0 <= v < 6)%Z -> fin (lget e v) /\ Rabs (val (lget e v)) <= em) ->
  step (Homogenize fuel q) (o, fs) = Ok (o', fs', r) -> lookup id (o_gps o) = Some g -> ~ below o g ->
  exists g' er, lookup id (o_gps o') = Some g' /\ aget (g_err g') 0 = Some er /\
  (oltb er nr_tol = true -> forall v x, (0 <= v < 6)%Z -> aget (g_stress g') v = Some x -> fin x /\
    val (lget mp 1) * Rabs (val x - dot 6 (K v) (fun i => val (lget e i))) <= stress_gap3 V H L M m em er).
Proof.
  destruct built3 as (Sv & (tol & EV) & FV & St & D & EN & PM). destruct (body_W V H M FV D) as (BW & LW & AW).
  destruct (effective3 W m M BW LW AW Hm PM St) as (K & Sy & Ex & Ap). exists K. split; [exact Sy|]. split; [exact Ex|].
  intros cs o fs fuel q id e o' fs' r em g R0 Ls Em He Hs Lg Nb. assert (O0 : is_object o0) by (do 11 eexists; eauto).
  destruct (reach_inv o0 cs o fs O0 R0) as (_ & (Eo & _) & (_ & Hi)). destruct (Hi id g Lg) as (Q & _). specialize (Q e Ls).
  destruct (point_solved o0 cs o fs fuel q o' fs' r id g O0 R0 Hs Lg (or_intror Nb)) as (g' & w & k & Lg' & (Wk & _) & So).
  rewrite Eo in *. destruct So as (vo & w1 & nl & it & er & s & Hvo & Fvo & Er & Hst & _ & He0 & _). exists g', er. split; [exact Lg'|]. split; [exact He0|].
  intros T v x Hv X. assert (Nv : nvoi V = 6%Z) by (unfold nvoi; now rewrite D).
 rewrite Hst in X by lia. injection X as <-.
  assert (Wk2 : wok V (set_vold w vo)). { destruct Wk. constructor; try assumption. intros a b c Ha Hb Hc P. rewrite (fr_lin _ _ _ FV D a Ha) in P; discriminate. }
  set (eps := map (oval (g_strain g)) (zrange 0 (nvoi V))) in *.
  assert (Hem : forall v, (0 <= v < 6)%Z -> Rabs (val (lget eps v)) <= em).
  { apply (given_small V g e em Sv Q (em0 em (proj1 Em))). rewrite Nv. intros i Hi2. exact (proj2 (He i Hi2)). }
  assert (Hfin : forall v, (0 <= v < 6)%Z -> fin (lget eps v)) by (apply (given_fin V g e Sv Q); rewrite Nv; intros i Hi2; exact (proj1 (He i Hi2))).
  assert (LX : val (v_lx V) <= L) by (rewrite (eo_lx _ _ _ _ _ _ _ _ _ _ EV); exact (fa_lx _ _ _ _ _ _ _ _ _ FA)).
  assert (LY : val (v_ly V) <= L) by (rewrite (eo_ly _ _ _ _ _ _ _ _ _ _ EV); exact (fa_ly _ _ _ _ _ _ _ _ _ FA)).
  assert (LZ : val (v_lz V) <= L) by (rewrite (eo_lz _ _ _ _ _ _ _ _ _ _ EV); exact (fa_lz _ _ _ _ _ _ _ _ _ FA eq_refl)).
  rewrite <- EN in G.
  destruct (finite_stress3 V H M em m eps fuel (q k 0%Z) (set_vold w vo) w1 nl it er s FV D Em Hfin Hem Hm PM St G Th Wk2 Er T) as (AF & Fs). pose proof (proj1 (Fs v Hv)) as Fx. split; [exact Fx|].
  pose proof (answer3 V H M L em m eps FV D LX LY LZ (proj1 Em) Hem Hm PM St G Th fuel (q k 0%Z) (set_vold w vo) w1 nl it er s Wk2 Er T AF K Ap v Hv Fx) as Z.
  change (v_ly W) with (val (v_ly V)) in Z. rewrite (eo_ly _ _ _ _ _ _ _ _ _ _ EV) in Z at 1.
  replace (dot 6 (K v) (fun i => val (lget e i))) with (dot 6 (K v) (fun v => val (lget eps v))); [exact Z|].
  unfold dot. apply rsum_ext. intros i Hi2. apply in_zrange in Hi2. unfold eps. rewrite (given_strain V g e Sv Q i) by lia. reflexivity.
Qed.
End Three.

Lemma two_not_three : 2%Z = 3%Z -> False.
Proof. discriminate. Qed.
Lemma old_full (V : env flt) vo : EllFinal.full vo (nvars V) -> has_old V vo.
Proof. intros (_ & F) e g i He Hg Hi _. apply F. rewrite nvars_eq. unfold intvar_ix. lia. Qed.
Section Two.
Variables (fuel0 : nat) (q0 : Z -> peek) (j : junk flt) (nx ny nz mtype : Z) (mp : list flt) (mt : list Z) (ps : list flt) (o0 : obj flt) (H L m M : R).
Hypothesis A : valid_args 2 nx ny nz mtype mp mt ps.
Hypothesis J : total_junk j.
Hypothesis C : construct fuel0 q0 j 2 [nx; ny; nz] mtype mp mt ps = Ok o0.
Hypothesis FA : fair_args 2 nx ny nz mp ps H L M.
Hypothesis Hm : 0 < m.
Hypothesis Mo : moduli2 (map val ps) m M.
Local Notation V := (o_env o0).
Local Notation W := (exact_env (o_env o0)).
Local Notation cells := (IZR ((nx - 1) * (ny - 1))).
Local Notation N := (nx * ny * 2)%Z.
Hypothesis G : gam (S (Z.to_nat N)) <= / 2.
Hypothesis Th : theta2 V H M m + gam 12 <= / 2.
Lemma built2 : sane V /\ (exists tol, env_of 2 nx ny nz mtype mp mt ps tol V) /\ fair V H M /\ stiff2 W m M /\ v_dim V = 2%Z /\ ndofs V = N /\ 0 <= M.
Proof.
  pose proof (construct_ok fuel0 q0 j 2 nx ny nz mtype mp mt ps A J) as Q. rewrite C in Q. destruct Q as ((Ko & _) & (tol & _ & EV) & _). pose proof (ok_sane o0 Ko) as Sv.
  split; [exact Sv|]. split; [now exists tol|].
  split; [exact (fair_of 2 nx ny nz mtype mp mt ps tol V H L M EV Sv FA (fun D3 => False_ind _ (two_not_three D3)) (two2 ps m M Mo))|].
  split; [exact (stiff_of2 2 nx ny nz mtype mp mt ps tol V H L m M EV Sv FA Mo)|]. assert (D : v_dim V = 2%Z) by exact (eo_dim _ _ _ _ _ _ _ _ _ _ EV). split; [exact D|].
  split; [|pose proof (Mo 0 (or_introl eq_refl))%Z as M0; cbv zeta in M0; lra].
  rewrite (ndofs_eq2 V Sv D), (eo_nx _ _ _ _ _ _ _ _ _ _ EV), (eo_ny _ _ _ _ _ _ _ _ _ _ EV). reflexivity.
Qed.
(** 1152 (H H M) times the volume of a cell, and the number of roundings behind a stress *)
Definition stress_gap2 (V : env flt) (H L M m em : R) (er : flt) : R :=
  let W := exact_env V in let nb := norm_bound (ndofs V) er in
  spread (ndofs V) (sqrt (4 * (IZR ((v_nx W - 1) * (v_ny W - 1)) * M) / m)) (103 + length (els2 V)) (v_ly W) 1 M H nb (size2 V M L em m nb) 1152 (v_dx W * v_dy W).
Theorem double_answers2 : exists K : Z -> Z -> R, (forall v i, (0 <= v < 3)%Z -> (0 <= i < 3)%Z -> K v i = K i v) /\
  (forall e u b s, state2 W e u b 0 s -> forall v, (0 <= v < 3)%Z -> lget s v = dot 3 (K v) (lget e)) /\
  forall cs o fs fuel q id e o' fs' r em g, reaches o0 cs o fs -> last_set id e cs -> p2 (-40) <= em <= p2 100 -> (forall v, (0 <= v < 3)%Z -> fin (lget e v) /\ Rabs (val (lget e v)) <= em) ->
  step (Homogenize fuel q) (o, fs) = Ok (o', fs', r) -> lookup id (o_gps o) = Some g -> ~ below o g ->
  exists g' er, lookup id (o_gps o') = Some g' /\ aget (g_err g') 0 = Some er /\
  (oltb er nr_tol = true -> forall v x, (0 <= v < 3)%Z -> aget (g_stress g') v = Some x -> fin x /\
    val (lget mp 1) * Rabs (val x - dot 3 (K v) (fun i => val (lget e i))) <= stress_gap2 V H L M m em er).
Proof.
  destruct built2 as (Sv & (tol & EV) & FV & St & D & EN & PM). destruct (body_W2 V H M FV D) as (BW & AW).
  destruct (effective2 W m M BW AW Hm PM St) as (K & Sy & Ex & Ap). exists K. split; [exact Sy|]. split; [exact Ex|].
  intros cs o fs fuel q id e o' fs' r em g R0 Ls Em He Hs Lg Nb. assert (O0 : is_object o0) by (do 11 eexists; eauto).
  destruct (reach_inv o0 cs o fs O0 R0) as (_ & (Eo & _) & (_ & Hi)). destruct (Hi id g Lg) as (Q & _). specialize (Q e Ls).
  destruct (point_solved o0 cs o fs fuel q o' fs' r id g O0 R0 Hs Lg (or_intror Nb)) as (g' & w & k & Lg' & (Wk & _) & So).
  rewrite Eo in *. destruct So as (vo & w1 & nl & it & er & s & Hvo & Fvo & Er & Hst & _ & He0 & _). exists g', er. split; [exact Lg'|]. split; [exact He0|].
  intros T v x Hv X. assert (Nv : nvoi V = 3%Z) by (unfold nvoi; now rewrite D).
 rewrite Hst in X by lia. injection X as <-.
  assert (Wk2 : wok V (set_vold w vo)). { destruct Wk. constructor; try assumption. exact (old_full V vo Fvo). }
  set (eps := map (oval (g_strain g)) (zrange 0 (nvoi V))) in *.
  assert (Hem : forall v, (0 <= v < 6)%Z -> Rabs (val (lget eps v)) <= em).
  { apply (given_small V g e em Sv Q (em02 em (proj1 Em))). rewrite Nv. intros i Hi2. exact (proj2 (He i Hi2)). }
  assert (Hfin : forall v, (0 <= v < 6)%Z -> fin (lget eps v)) by (apply (given_fin V g e Sv Q); rewrite Nv; intros i Hi2; exact (proj1 (He i Hi2))).
  assert (LX : val (v_lx V) <= L) by (rewrite (eo_lx _ _ _ _ _ _ _ _ _ _ EV); exact (fa_lx _ _ _ _ _ _ _ _ _ FA)).
  assert (LY : val (v_ly V) <= L) by (rewrite (eo_ly _ _ _ _ _ _ _ _ _ _ EV); exact (fa_ly _ _ _ _ _ _ _ _ _ FA)).
  rewrite <- EN in G.
  destruct (finite_stress2 V H M em m eps fuel (q k 0%Z) (set_vold w vo) w1 nl it er s FV D Em Hfin Hem Hm PM St G Th Wk2 Er T) as (AF & Fs). pose proof (proj1 (Fs v Hv)) as Fx. split; [exact Fx|].
  pose proof (answer2 V H M L em m eps FV D LX LY (proj1 Em) Hem Hm PM St G Th fuel (q k 0%Z) (set_vold w vo) w1 nl it er s Wk2 Er T AF K Ap v Hv Fx) as Z.
  change (v_ly W) with (val (v_ly V)) in Z. rewrite (eo_ly _ _ _ _ _ _ _ _ _ _ EV) in Z at 1.
  replace (dot 3 (K v) (fun i => val (lget e i))) with (dot 3 (K v) (fun v => val (lget eps v))); [exact Z|].
  unfold dot. apply rsum_ext. intros i Hi2. apply in_zrange in Hi2. unfold eps. rewrite (given_strain V g e Sv Q i) by lia. reflexivity.
Qed.
End Two.
