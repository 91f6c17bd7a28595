(** Two objects of doubles: a slab of cells with all nodes on the boundary, in 2D and 3D, with two materials. *)
From Coq Require Import Reals Lra ZifyBool ZifyNat.
From Flocq Require Import BinarySingleNaN.
From Verif Require Import Base Scalar MonoBody ConvexMin EllSpec EllInit EllAsm EllFinal Grid CgPure CgProps AssemblyModel AsmPure AsmBnd AsmRun AsmSpec AsmProps AsmEquil AsmPoint FemGen FemAve FemRhs FemEquil AsmMat FemPd
  MicroModel OutputModel NewtonBase ApiBase ApiRun ApiHist Build ApiExact ApiSpec ApiProps ApiCases Tangent KornProps EffBound BinInst FloatSum FloatCg FloatFem FloatBody FloatMat FloatNewton FloatBnd FloatShadow FloatAnswer FloatFin FloatSize FloatObj FloatRun FloatCase.
Open Scope Z_scope.
Open Scope R_scope.
Notation val := (@B2R 53 1024).

Definition quart : flt := odiv (ofZ 1) (ofZ 4).
Lemma quart_val : fin quart /\ val quart = / 4.
Proof.
  assert (E : B2SF quart = SpecFloat.S754_finite false 4503599627370496 (-54)) by (vm_compute; reflexivity).
  unfold fin. destruct quart as [ | | | s m e B]; try discriminate E. injection E as -> -> ->. split; [reflexivity|].
  cbn [B2R]. unfold Defs.F2R. cbn. lra.
Qed.
Lemma half_fin : fin (odiv (ofZ 1) (ofZ 2)).
Proof. vm_compute. reflexivity. Qed.
(** Young's moduli 1 and 2, Poisson's ratio 1/4 *)
Definition pair20 : list flt := [ofZ 1; quart; ofZ 0; ofZ 0; ofZ 0; ofZ 0; ofZ 0; ofZ 0; ofZ 0; ofZ 0; ofZ 2; quart; ofZ 0; ofZ 0; ofZ 0; ofZ 0; ofZ 0; ofZ 0; ofZ 0; ofZ 0].
Definition eps_h : list flt := [odiv (ofZ 1) (ofZ 2); ofZ 1; quart; ofZ 0; ofZ 2; ofZ 0].
Definition one_hom : call flt := Homogenize fuel40 cnt2.
Lemma never_below (x : flt) : oltb (oabs x) (ofZ 0) <> true.
Proof.
  intro T. destruct (int_exact 0 ltac:(lia)) as [F0 E0]. assert (Fx : fin (oabs x)).
  { destruct x; try reflexivity; vm_compute in T; discriminate T. }
  apply (proj1 (lt_val _ _ Fx F0)) in T. rewrite E0 in T. rewrite val_abs in T. pose proof (Rabs_pos (val x)). lra.
Qed.
Theorem flat_case dim ny nz mtype (mp : list flt) mt ps : valid_args dim 2 ny nz mtype mp mt ps -> exists o0 o fs o' fs' r g g' er,
  construct fuel40 (fun _ => counting) (flat_junk (ofZ 0)) dim [2; ny; nz]%Z mtype mp mt ps = Ok o0 /\ reaches o0 [SetStrain 7 eps_h] o fs /\ last_set 7 eps_h [SetStrain 7 eps_h] /\
  step one_hom (o, fs) = Ok (o', fs', r) /\ lookup 7 (o_gps o) = Some g /\ ~ below o g /\ lookup 7 (o_gps o') = Some g' /\ aget (g_err g') 0 = Some er /\ oltb er nr_tol = true.
Proof.
  intros A. pose proof (construct_ok fuel40 (fun _ => counting) (flat_junk (ofZ 0)) dim 2 ny nz mtype mp mt ps A (flat_total _)) as Q.
  destruct (construct fuel40 (fun _ => counting) (flat_junk (ofZ 0)) dim [2; ny; nz]%Z mtype mp mt ps) as [o0|e] eqn:C; [|destruct Q as (i & Q); elim (counting_good _ _ fuel40_ok Q)].
  destruct Q as ((Ko & _) & (tol & Et & EV) & _). cbn [flat_junk j_tol] in Et. injection Et as <-. pose proof (ok_sane o0 Ko) as Sv.
  assert (O0 : is_object o0). { exists dim, 2%Z, ny, nz, mtype, mp, mt, ps, fuel40, (fun _ => counting), (flat_junk (ofZ 0)). split; [exact A|]. split; [apply flat_total|exact C]. }
  destruct (harmless_runs o0 (mkFiles [] [] [] [] []) ([SetStrain 7 eps_h] ++ [one_hom]) O0) as (o' & fs' & fs0 & rs & R0).
  { constructor; [cbn; lia|]. constructor; [|constructor]. split; [exact fuel40_ok|reflexivity]. }
  rewrite run_app in R0. destruct (run [SetStrain 7 eps_h] (o0, _)) as [((o, fs), rs1)|] eqn:E1; cbn [bind fst snd] in R0; [|discriminate]. cbn [run] in R0.
  destruct (step one_hom (o, fs)) as [((o2, fs2), r)|] eqn:E2; cbn [bind fst snd] in R0; [|discriminate]. clear R0 o' fs' rs.
  assert (Rc : reaches o0 [SetStrain 7 eps_h] o fs) by (eexists _, _; exact E1).
  destruct (reach_inv o0 _ o fs O0 Rc) as (Ko2 & (Eo & _) & _).
  destruct (lookup_set o0 _ o fs 7 O0 Rc (or_introl eq_refl)) as (g & Lg).
  assert (Nb : ~ below o g). { unfold below. rewrite Eo. rewrite (eo_tol _ _ _ _ _ _ _ _ _ _ EV). apply never_below. }
  destruct (point_solved o0 _ o fs fuel40 cnt2 o2 fs2 r 7 g O0 Rc E2 Lg (or_intror Nb)) as (g' & w & k & Lg' & (Wk & _) & So).
  rewrite Eo in *. destruct So as (vo & w1 & nl & it & er & s & Hvo & Fvo & Er & Hst & _ & He0 & _).
  assert (Wk2 : wok (o_env o0) (set_vold w vo)). { destruct Wk. constructor; try assumption. exact (old_full _ vo Fvo). }
  assert (T : oltb er nr_tol = true).
  { destruct (respond_split _ _ _ _ _ _ _ _ _ _ Er) as (u0 & w2 & vn & Eu & En & _ & _). destruct (displ_ok (o_env o0) (map (oval (g_strain g)) (zrange 0 (nvoi (o_env o0)))) (w_u (set_vold w vo)) Sv (wk_u _ _ Wk2)) as (u2 & Eu2 & Fu0). rewrite Eu in Eu2. injection Eu2 as <-.
    assert (K1 : wok (o_env o0) (set_u (set_vold w vo) u0)) by (destruct Wk2; constructor; assumption).
    destruct (inner_or _ Sv) as [(In & _)|B]; [rewrite (eo_nx _ _ _ _ _ _ _ _ _ _ EV) in In; lia|]. exact (proj1 (flat_newton _ _ _ _ _ _ _ _ Sv K1 B En)). }
  exists o0, o, fs, o2, fs2, r, g, g', er. split; [reflexivity|]. split; [exact Rc|]. split; [|split; [exact E2|split; [exact Lg|split; [exact Nb|split; [exact Lg'|split; [exact He0|exact T]]]]]].
  exists [], []. split; [reflexivity|]. intros e [].
Qed.

(** ** The arguments are fair *)
Lemma vals20 : lget pair20 0 = ofZ 1 /\ lget pair20 1 = quart /\ lget pair20 10 = ofZ 2 /\ lget pair20 11 = quart.
Proof. repeat split; reflexivity. Qed.
Lemma int1 : fin (ofZ 1) /\ val (ofZ 1) = 1.
Proof. exact (int_exact 1 ltac:(lia)). Qed.
Lemma int2 : fin (ofZ 2) /\ val (ofZ 2) = 2.
Proof. exact (int_exact 2 ltac:(lia)). Qed.
Lemma p2_1 e : (e <= 0)%Z -> p2 e <= 1.
Proof. intro. change 1 with (p2 0). now apply Raux.bpow_le. Qed.
Lemma one_p2 e : (0 <= e)%Z -> 1 <= p2 e.
Proof. intro. change 1 with (p2 0). now apply Raux.bpow_le. Qed.
Lemma one_side n : (2 <= n <= 4)%Z -> fair_side (ofZ 1) n /\ IZR (n - 1) / val (ofZ 1) <= 3.
Proof.
  intros Hn. destruct int1 as (F & E). unfold fair_side. rewrite E. pose proof (p2_1 (-60) ltac:(lia)). pose proof (one_p2 60 ltac:(lia)). split.
  - split; [exact F|]. split; [lra|]. split; [lia|]. apply Z.le_trans with 4%Z; [lia|]. apply Z.leb_le. vm_compute. reflexivity.
  - unfold Rdiv. rewrite Rinv_1, Rmult_1_r. apply IZR_le. lia.
Qed.
Lemma four_p2 : 4 <= p2 100.
Proof. change 4 with (p2 2). apply Raux.bpow_le. lia. Qed.
Lemma pair_fair dim nx ny nz : (2 <= nx <= 4)%Z -> (2 <= ny <= 4)%Z -> (dim = 3%Z -> (2 <= nz <= 4)%Z) -> fair_args dim nx ny nz half pair20 3 1 4.
Proof.
  intros Hx Hy Hz. destruct int1 as (F1 & E1). destruct int2 as (F2 & E2). destruct quart_val as (Fq & Eq). destruct vals20 as (A0 & A1 & A2 & A3).
  change (lget half 0) with (ofZ 1 : flt) in *. constructor; change (lget half 0) with (ofZ 1 : flt); change (lget half 1) with (ofZ 1 : flt); change (lget half 2) with (ofZ 1 : flt).
  - apply one_side, Hx.
  - apply one_side, Hy.
  - intro D. apply one_side, Hz, D.
  - apply one_side, Hx.
  - apply one_side, Hy.
  - intro D. apply one_side, Hz, D.
  - lra.
  - lra.
  - lra.
  - pose proof (p2_1 (-90) ltac:(lia)). intros i [-> | ->]; [change (0 + 1)%Z with 1%Z; rewrite A0, A1, E1, Eq|change (10 + 1)%Z with 11%Z; rewrite A2, A3, E2, Eq]; repeat split; try assumption; lra.
  - exact four_p2.
Qed.
Lemma pair_vals i : (i = 0 \/ i = 10)%Z -> exists E, (E = 1 \/ E = 2) /\ lget (map val pair20) i = E /\ lget (map val pair20) (i + 1) = / 4.
Proof.
  destruct int1 as (F1 & E1). destruct int2 as (F2 & E2). destruct quart_val as (Fq & Eq). destruct vals20 as (A0 & A1 & A2 & A3).
  intros [-> | ->]; rewrite !lget_vals; [change (0 + 1)%Z with 1%Z; rewrite A0, A1, E1, Eq|change (10 + 1)%Z with 11%Z; rewrite A2, A3, E2, Eq]; eexists; (split; [|split; reflexivity]); auto.
Qed.
Lemma pair_moduli3 : moduli3 (map val pair20) (1 / 2) 4.
Proof. intros i Hi. destruct (pair_vals i Hi) as (E & HE & -> & ->). cbv zeta. destruct HE as [-> | ->]; lra. Qed.
Lemma pair_moduli2 : moduli2 (map val pair20) (1 / 2) 4.
Proof. intros i Hi. destruct (pair_vals i Hi) as (E & HE & -> & ->). cbv zeta. destruct HE as [-> | ->]; lra. Qed.
Lemma gam_num n : (n <= 200)%nat -> gam n <= 240 * uro.
Proof.
  intro Hn. apply Rle_trans with (gam 200); [now apply gam_le|]. rewrite uro_val. assert (I : INR 200 = 200) by (rewrite INR_IZR_INZ; reflexivity).
  pose proof (gam_small 200) as Q. rewrite I, uro_val in Q. lra.
Qed.
Lemma eps_small v : (0 <= v < 6)%Z -> fin (lget eps_h v) /\ Rabs (val (lget eps_h v)) <= 2.
Proof.
  intro Hv. destruct int1 as (F1 & E1). destruct int2 as (F2 & E2). destruct quart_val as (Fq & Eq). destruct (int_exact 0 ltac:(lia)) as (F0 & E0). pose proof half_val as Eh. pose proof half_fin as Fh.
  assert (C : (v = 0 \/ v = 1 \/ v = 2 \/ v = 3 \/ v = 4 \/ v = 5)%Z) by lia. unfold lget, eps_h.
  destruct C as [-> | [-> | [-> | [-> | [-> | ->]]]]]; [change (Z.to_nat 0) with 0%nat|change (Z.to_nat 1) with 1%nat|change (Z.to_nat 2) with 2%nat|change (Z.to_nat 3) with 3%nat|change (Z.to_nat 4) with 4%nat|change (Z.to_nat 5) with 5%nat]; cbn [nth];
    (split; [assumption|]); rewrite ?Eh, ?E1, ?Eq, ?E0, ?E2, Rabs_pos_eq; lra.
Qed.
Lemma em_range : p2 (-40) <= 2 <= p2 100.
Proof. pose proof (p2_1 (-40) ltac:(lia)). pose proof four_p2. lra. Qed.
Lemma root_9 n : INR n <= 81 -> 0 <= sqrt (INR n) <= 9.
Proof. intro L. split; [apply sqrt_pos|]. rewrite <- (sqrt_square 9) by lra. apply sqrt_le_1_alt. lra. Qed.

(** ** The claims on doubles hold of something *)
Lemma flat_total0 : total_junk (flat_junk (ofZ 0 : flt)).
Proof. apply flat_total. Qed.
Lemma pair_valid dim nx ny nz : (dim = 2 \/ dim = 3 /\ 2 <= nz)%Z -> (2 <= nx)%Z -> (2 <= ny)%Z -> valid_args dim nx ny nz 1 half [0; 2]%Z pair20.
Proof.
  intros. constructor; [assumption|assumption|assumption|right; reflexivity|apply Nat.leb_le; reflexivity| |apply Nat.leb_le; reflexivity]. exists 0%Z, 2%Z, []. split; [reflexivity|]. unfold mat_type_ok. split; lia.
Qed.
Lemma pair_np : no_plastic [0; 2]%Z.
Proof. exists 0%Z, 2%Z, []. split; [reflexivity|]. split; auto. Qed.
Lemma rho_small k n : (n <= 81)%nat -> 0 <= k <= 46080 -> k * (1 * 1) * (3 * 3) * (4 / (1 / 2)) * (sqrt (INR n) * gam 165) + gam 12 <= / 2.
Proof.
  intros Hn Hk. assert (L : INR n <= 81) by (rewrite INR_IZR_INZ; apply IZR_le; lia). pose proof (root_9 n L) as (P & Q).
  pose proof (gam_num 165 ltac:(lia)) as G. pose proof (gam_num 12 ltac:(lia)) as G2. pose proof (gam_pos 165) as Gp. rewrite uro_val in *.
  assert (B : sqrt (INR n) * gam 165 <= 9 * (240 * / 9007199254740992)) by (apply Rmult_le_compat; lra). assert (B0 : 0 <= sqrt (INR n) * gam 165) by (apply Rmult_le_pos; lra).
  replace (k * (1 * 1) * (3 * 3) * (4 / (1 / 2)) * (sqrt (INR n) * gam 165)) with (72 * (k * (sqrt (INR n) * gam 165))) by field.
  assert (k * (sqrt (INR n) * gam 165) <= 46080 * (9 * (240 * / 9007199254740992))) by (apply Rmult_le_compat; lra). lra.
Qed.
Lemma flat_answers3 : exists o0 o fs o' fs' r g g' er,
  valid_args 3 2 3 4 1 half [0; 2]%Z pair20 /\ total_junk (flat_junk (ofZ 0 : flt)) /\ construct fuel40 (fun _ => counting) (flat_junk (ofZ 0)) 3 [2; 3; 4]%Z 1 half [0; 2]%Z pair20 = Ok o0 /\
  fair_args 3 2 3 4 half pair20 3 1 4 /\ no_plastic [0; 2]%Z /\ moduli3 (map val pair20) (1 / 2) 4 /\ gam (S (Z.to_nat (2 * 3 * 4 * 3))) <= / 2 /\
  46080 * (val (lget half 0) * val (lget half 0)) * (3 * 3) * (4 / (1 / 2)) * (sqrt (INR (Z.to_nat (2 * 3 * 4 * 3))) * gam 165) + gam 12 <= / 2 /\
  reaches o0 [SetStrain 7 eps_h] o fs /\ last_set 7 eps_h [SetStrain 7 eps_h] /\ p2 (-40) <= 2 <= p2 100 /\ (forall v, (0 <= v < 6)%Z -> fin (lget eps_h v) /\ Rabs (val (lget eps_h v)) <= 2) /\
  step one_hom (o, fs) = Ok (o', fs', r) /\ lookup 7 (o_gps o) = Some g /\ ~ below o g /\ lookup 7 (o_gps o') = Some g' /\ aget (g_err g') 0 = Some er /\ oltb er nr_tol = true.
Proof.
  assert (A : valid_args 3 2 3 4 1 half [0; 2]%Z pair20) by (apply pair_valid; lia).
  destruct (flat_case 3 3 4 1 half [0; 2]%Z pair20 A) as (o0 & o & fs & o' & fs' & r & g & g' & er & C & Q1 & Q2 & Q3). exists o0, o, fs, o', fs', r, g, g', er.
  split; [exact A|]. split; [exact flat_total0|]. split; [exact C|]. split; [apply pair_fair; lia|]. split; [exact pair_np|]. split; [exact pair_moduli3|]. split; [apply gam_half; lia|].
  split. { change (lget half 0) with (ofZ 1 : flt). rewrite (proj2 int1). apply rho_small; [lia|lra]. }
  split; [exact Q1|]. split; [exact Q2|]. split; [exact em_range|]. split; [exact eps_small|]. exact Q3.
Qed.
Lemma flat_answers2 : exists o0 o fs o' fs' r g g' er,
  valid_args 2 2 4 1 1 half [0; 2]%Z pair20 /\ total_junk (flat_junk (ofZ 0 : flt)) /\ construct fuel40 (fun _ => counting) (flat_junk (ofZ 0)) 2 [2; 4; 1]%Z 1 half [0; 2]%Z pair20 = Ok o0 /\
  fair_args 2 2 4 1 half pair20 3 1 4 /\ moduli2 (map val pair20) (1 / 2) 4 /\ gam (S (Z.to_nat (2 * 4 * 2))) <= / 2 /\
  4608 * (val (lget half 0) * val (lget half 0)) * (3 * 3) * (4 / (1 / 2)) * (sqrt (INR (Z.to_nat (2 * 4 * 2))) * gam 165) + gam 12 <= / 2 /\
  reaches o0 [SetStrain 7 eps_h] o fs /\ last_set 7 eps_h [SetStrain 7 eps_h] /\ p2 (-40) <= 2 <= p2 100 /\ (forall v, (0 <= v < 3)%Z -> fin (lget eps_h v) /\ Rabs (val (lget eps_h v)) <= 2) /\
  step one_hom (o, fs) = Ok (o', fs', r) /\ lookup 7 (o_gps o) = Some g /\ ~ below o g /\ lookup 7 (o_gps o') = Some g' /\ aget (g_err g') 0 = Some er /\ oltb er nr_tol = true.
Proof.
  assert (A : valid_args 2 2 4 1 1 half [0; 2]%Z pair20) by (apply pair_valid; lia).
  destruct (flat_case 2 4 1 1 half [0; 2]%Z pair20 A) as (o0 & o & fs & o' & fs' & r & g & g' & er & C & Q1 & Q2 & Q3). exists o0, o, fs, o', fs', r, g, g', er.
  split; [exact A|]. split; [exact flat_total0|]. split; [exact C|]. split; [apply pair_fair; lia|]. split; [exact pair_moduli2|]. split; [apply gam_half; lia|].
  split. { change (lget half 0) with (ofZ 1 : flt). rewrite (proj2 int1). apply rho_small; [lia|lra]. }
  split; [exact Q1|]. split; [exact Q2|]. split; [exact em_range|]. split; [intros v Hv; apply eps_small; lia|]. exact Q3.
Qed.
Lemma flat_respond V eps (w : work flt) : sane V -> v_nx V = 2%Z -> wok V w -> exists w1 nl it er s, respond fuel40 counting V eps w = Ok (w1, nl, it, er, s) /\ oltb er nr_tol = true.
Proof.
  intros Sv N K. pose proof (respond_ok V counting fuel40 eps w Sv K) as Q. destruct (respond fuel40 counting V eps w) as [((((w1, nl), it), er), s)|e] eqn:Er; [|elim (counting_good _ _ fuel40_ok Q)].
  exists w1, nl, it, er, s. split; [reflexivity|]. destruct (respond_split _ _ _ _ _ _ _ _ _ _ Er) as (u0 & w2 & vn & Eu & En & _ & _). destruct (displ_ok V eps (w_u w) Sv (wk_u _ _ K)) as (u2 & Eu2 & Fu0). rewrite Eu in Eu2. injection Eu2 as <-.
  assert (K1 : wok V (set_u w u0)) by (destruct K; constructor; assumption).
  destruct (inner_or _ Sv) as [(In & _)|B]; [lia|]. exact (proj1 (flat_newton _ _ _ _ _ _ _ _ Sv K1 B En)).
Qed.
Lemma flat_object3 : exists o : obj flt, construct fuel40 (fun _ => counting) (flat_junk (ofZ 0)) 3 [2; 3; 4]%Z 1 half [0; 2]%Z pair20 = Ok o /\ wok (o_env o) (o_work o) /\ v_nx (o_env o) = 2%Z /\ sane (o_env o) /\
  val (v_lx (o_env o)) = 1 /\ val (v_ly (o_env o)) = 1 /\ val (v_lz (o_env o)) = 1 /\ fair (o_env o) 3 4 /\ stiff3 (exact_env (o_env o)) (1 / 2) 4 /\ v_dim (o_env o) = 3%Z /\ ndofs (o_env o) = 72%Z.
Proof.
  destruct flat_answers3 as (o0 & o & fs & o' & fs' & r & g & g' & er & A & J & C & FA & NP & Mo & _). exists o0. split; [exact C|].
  pose proof (construct_ok fuel40 (fun _ => counting) (flat_junk (ofZ 0)) 3 2 3 4 1 half [0; 2]%Z pair20 A J) as Q. rewrite C in Q. destruct Q as ((Ko & _) & _).
  destruct (built3 fuel40 (fun _ => counting) (flat_junk (ofZ 0)) 2 3 4 1 half [0; 2]%Z pair20 o0 3 1 (1 / 2) 4 A J C FA NP ltac:(lra) Mo) as (Sv & (tol & EV) & FV & St & D & EN & _).
  split; [exact (proj1 (ok_work _ Ko))|]. split; [exact (eo_nx _ _ _ _ _ _ _ _ _ _ EV)|]. split; [exact Sv|].
  rewrite (eo_lx _ _ _ _ _ _ _ _ _ _ EV), (eo_ly _ _ _ _ _ _ _ _ _ _ EV), (eo_lz _ _ _ _ _ _ _ _ _ _ EV). cbn [Z.eqb Pos.eqb].
  change (lget half 0) with (ofZ 1 : flt); change (lget half 1) with (ofZ 1 : flt); change (lget half 2) with (ofZ 1 : flt). destruct int1 as (_ & E1). repeat (split; [first [exact E1|exact FV|exact St|exact D]|]). exact EN.
Qed.
Lemma flat_object2 : exists o : obj flt, construct fuel40 (fun _ => counting) (flat_junk (ofZ 0)) 2 [2; 4; 1]%Z 1 half [0; 2]%Z pair20 = Ok o /\ wok (o_env o) (o_work o) /\ v_nx (o_env o) = 2%Z /\ sane (o_env o) /\
  val (v_lx (o_env o)) = 1 /\ val (v_ly (o_env o)) = 1 /\ fair (o_env o) 3 4 /\ stiff2 (exact_env (o_env o)) (1 / 2) 4 /\ v_dim (o_env o) = 2%Z /\ ndofs (o_env o) = 16%Z.
Proof.
  destruct flat_answers2 as (o0 & o & fs & o' & fs' & r & g & g' & er & A & J & C & FA & Mo & _). exists o0. split; [exact C|].
  pose proof (construct_ok fuel40 (fun _ => counting) (flat_junk (ofZ 0)) 2 2 4 1 1 half [0; 2]%Z pair20 A J) as Q. rewrite C in Q. destruct Q as ((Ko & _) & _).
  destruct (built2 fuel40 (fun _ => counting) (flat_junk (ofZ 0)) 2 4 1 1 half [0; 2]%Z pair20 o0 3 1 (1 / 2) 4 A J C FA ltac:(lra) Mo) as (Sv & (tol & EV) & FV & St & D & EN & _).
  split; [exact (proj1 (ok_work _ Ko))|]. split; [exact (eo_nx _ _ _ _ _ _ _ _ _ _ EV)|]. split; [exact Sv|].
  rewrite (eo_lx _ _ _ _ _ _ _ _ _ _ EV), (eo_ly _ _ _ _ _ _ _ _ _ _ EV).
  change (lget half 0) with (ofZ 1 : flt); change (lget half 1) with (ofZ 1 : flt). destruct int1 as (_ & E1). repeat (split; [first [exact E1|exact FV|exact St|exact D]|]). exact EN.
Qed.
(** a field of zeros and ones *)
Lemma alternate V : near_field V (fun_arr (ndofs V) (fun a => ofZ (a mod 2))) (fun_arr (ndofs V) (fun a => IZR (a mod 2))) 1.
Proof.
  destruct (fun_arr_rep (ndofs V) (fun a => ofZ (a mod 2) : flt)) as (L1 & Q1). destruct (fun_arr_rep (ndofs V) (fun a => IZR (a mod 2))) as (L2 & Q2).
  split; [split; [exact L1|intros a Ha; eexists; exact (Q1 a Ha)]|]. split; [split; [exact L2|intros a Ha; eexists; exact (Q2 a Ha)]|]. intros a x y Ha Hx Hy.
  assert (Ex : x = ofZ (a mod 2)) by (specialize (Q1 a Ha); congruence). assert (Ey : y = IZR (a mod 2)) by (specialize (Q2 a Ha); congruence). subst y. rewrite Ex. clear Ex. pose proof (Z.mod_pos_bound a 2 ltac:(lia)) as B.
  destruct (int_exact (a mod 2) ltac:(lia)) as (F & E). split; [exact F|]. rewrite E, Rminus_diag_eq, Rabs_R0 by reflexivity. pose proof (gam_pos 12). split; [|lra].
  pose proof (IZR_le 0 _ (proj1 B)). pose proof (IZR_le (a mod 2) 1 ltac:(lia)). rewrite Rabs_pos_eq; lra.
Qed.
Lemma case_body3 : exists (V : env flt) u r vo vn b b' nl vn' er s vn2, fair V 3 4 /\ v_dim V = 3%Z /\ gam (S (Z.to_nat (ndofs V))) <= / 2 /\ p2 (-100) <= 1 <= p2 299 /\ near_field V u r 1 /\
  has_old V vo /\ alen vn = nvars V /\ alen b = ndofs V /\ assembly_rhs V u vo vn b = Ok (b', nl, vn', er) /\ calc_ave_stress V u vo vn = Ok (s, vn2).
Proof.
  destruct flat_object3 as (o & _ & K & _ & Sv & _ & _ & _ & FV & _ & D & EN). pose proof (alternate (o_env o)) as Nr.
  destruct (rhs_ok (o_env o) _ (w_vold (o_work o)) (w_vnew (o_work o)) (w_b (o_work o)) Sv (proj1 Nr) (wk_old _ _ K) (wk_new _ _ K) (wk_b _ _ K)) as (b' & nl & vn' & er & E & _).
  destruct (ave_stress_ok (o_env o) _ (w_vold (o_work o)) (w_vnew (o_work o)) Sv (proj1 Nr) (wk_old _ _ K) (wk_new _ _ K)) as (s & vn2 & E2 & _).
  do 12 eexists. split; [exact FV|]. split; [exact D|]. split; [rewrite EN; apply gam_half; lia|]. split; [split; [apply p2_1; lia|apply one_p2; lia]|]. split; [exact Nr|]. split; [exact (wk_old _ _ K)|]. split; [exact (wk_new _ _ K)|]. split; [exact (wk_b _ _ K)|]. split; [exact E|exact E2].
Qed.
Lemma case_body2 : exists (V : env flt) u r vo vn b b' nl vn' er s vn2, fair V 3 4 /\ v_dim V = 2%Z /\ gam (S (Z.to_nat (ndofs V))) <= / 2 /\ p2 (-100) <= 1 <= p2 299 /\ near_field V u r 1 /\
  alen b = ndofs V /\ assembly_rhs V u vo vn b = Ok (b', nl, vn', er) /\ calc_ave_stress V u vo vn = Ok (s, vn2).
Proof.
  destruct flat_object2 as (o & _ & K & _ & Sv & _ & _ & FV & _ & D & EN). pose proof (alternate (o_env o)) as Nr.
  destruct (rhs_ok (o_env o) _ (w_vold (o_work o)) (w_vnew (o_work o)) (w_b (o_work o)) Sv (proj1 Nr) (wk_old _ _ K) (wk_new _ _ K) (wk_b _ _ K)) as (b' & nl & vn' & er & E & _).
  destruct (ave_stress_ok (o_env o) _ (w_vold (o_work o)) (w_vnew (o_work o)) Sv (proj1 Nr) (wk_old _ _ K) (wk_new _ _ K)) as (s & vn2 & E2 & _).
  do 12 eexists. split; [exact FV|]. split; [exact D|]. split; [rewrite EN; apply gam_half; lia|]. split; [split; [apply p2_1; lia|apply one_p2; lia]|]. split; [exact Nr|]. split; [exact (wk_b _ _ K)|]. split; [exact E|exact E2].
Qed.
Lemma case_respond3 : exists (V : env flt) (w w' : work flt) nl it er s, fair V 3 4 /\ v_dim V = 3%Z /\ val (v_lx V) <= 1 /\ val (v_ly V) <= 1 /\ val (v_lz V) <= 1 /\ p2 (-40) <= 2 <= p2 100 /\
  (forall v, (0 <= v < 6)%Z -> fin (lget eps_h v) /\ Rabs (val (lget eps_h v)) <= 2) /\ stiff3 (exact_env V) (1 / 2) 4 /\ gam (S (Z.to_nat (ndofs V))) <= / 2 /\ theta3 V 3 4 (1 / 2) + gam 12 <= / 2 /\ wok V w /\
  respond fuel40 counting V eps_h w = Ok (w', nl, it, er, s) /\ oltb er nr_tol = true.
Proof.
  destruct flat_object3 as (o & _ & K & N & Sv & X & Y & Z0 & FV & St & D & EN). destruct (flat_respond (o_env o) eps_h (o_work o) Sv N K) as (w1 & nl & it & er & s & E & T).
  exists (o_env o), (o_work o), w1, nl, it, er, s. split; [exact FV|]. split; [exact D|]. split; [rewrite X; lra|]. split; [rewrite Y; lra|]. split; [rewrite Z0; lra|]. split; [exact em_range|]. split; [exact eps_small|]. split; [exact St|].
  split; [rewrite EN; apply gam_half; lia|]. split; [unfold theta3; rewrite X, EN; apply rho_small; [lia|lra]|]. split; [exact K|]. split; [exact E|exact T].
Qed.
Lemma case_respond2 : exists (V : env flt) (w w' : work flt) nl it er s, fair V 3 4 /\ v_dim V = 2%Z /\ val (v_lx V) <= 1 /\ val (v_ly V) <= 1 /\ p2 (-40) <= 2 <= p2 100 /\
  (forall v, (0 <= v < 6)%Z -> fin (lget eps_h v) /\ Rabs (val (lget eps_h v)) <= 2) /\ stiff2 (exact_env V) (1 / 2) 4 /\ gam (S (Z.to_nat (ndofs V))) <= / 2 /\ theta2 V 3 4 (1 / 2) + gam 12 <= / 2 /\ wok V w /\
  respond fuel40 counting V eps_h w = Ok (w', nl, it, er, s) /\ oltb er nr_tol = true.
Proof.
  destruct flat_object2 as (o & _ & K & N & Sv & X & Y & FV & St & D & EN). destruct (flat_respond (o_env o) eps_h (o_work o) Sv N K) as (w1 & nl & it & er & s & E & T).
  exists (o_env o), (o_work o), w1, nl, it, er, s. split; [exact FV|]. split; [exact D|]. split; [rewrite X; lra|]. split; [rewrite Y; lra|]. split; [exact em_range|]. split; [exact eps_small|]. split; [exact St|].
  split; [rewrite EN; apply gam_half; lia|]. split; [unfold theta2; rewrite X, EN; apply rho_small; [lia|lra]|]. split; [exact K|]. split; [exact E|exact T].
Qed.
