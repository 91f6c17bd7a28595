(** Objects of doubles whose tangents are all accepted, and one that takes the shortcut. *)
From Coq Require Import Reals Lra ZifyBool ZifyNat.
From Flocq Require Import BinarySingleNaN.
From Verif Require Import Base Scalar EllSpec EllInit EllModel EllAsm EllFinal Grid CgPure CgProps AssemblyModel AsmPure AsmBnd AsmRun AsmSpec AsmProps AsmEquil AsmPoint FemGen FemAve FemEquil
  MicroModel OutputModel NewtonBase ApiBase ApiRun ApiHist Build ApiExact ApiSpec ApiProps ApiCases Tangent KornProps EffBound BinInst FloatSum FloatCg FloatFem FloatBody FloatMat FloatNewton FloatBnd FloatShadow FloatAnswer FloatFin FloatSize FloatObj FloatRun FloatCase FloatFlat FloatTan.
Open Scope Z_scope.
Open Scope R_scope.
Notation val := (@B2R 53 1024).

Lemma flat_accept dim ny nz mtype (mp : list flt) mt ps tol V fuel pk eps w w1 nl it er s : env_of dim 2 ny nz mtype mp mt ps tol V -> sane V -> wok V w ->
  respond fuel pk V eps w = Ok (w1, nl, it, er, s) -> oltb er nr_tol = true.
Proof.
  intros EV Sv K Er. destruct (respond_split _ _ _ _ _ _ _ _ _ _ Er) as (u0 & w2 & vn & Eu & En & _ & _). destruct (displ_ok V eps (w_u w) Sv (wk_u _ _ K)) as (u2 & Eu2 & Fu0). rewrite Eu in Eu2. injection Eu2 as <-.
  assert (K1 : wok V (set_u w u0)) by (destruct K; constructor; assumption).
  destruct (inner_or _ Sv) as [(In & _)|B]; [rewrite (eo_nx _ _ _ _ _ _ _ _ _ _ EV) in In; lia|]. exact (proj1 (flat_newton _ _ _ _ _ _ _ _ Sv K1 B En)).
Qed.
(** the strain is set and the point homogenized once; [tol] is what the memory of inv_tol held *)
Lemma flat_run dim ny nz mtype (mp : list flt) mt ps e tol : (6 <= length e)%nat -> valid_args dim 2 ny nz mtype mp mt ps -> exists o0 o fs o' fs' r g,
  construct fuel40 (fun _ => counting) (flat_junk tol) dim [2; ny; nz]%Z mtype mp mt ps = Ok o0 /\ is_object o0 /\ sane (o_env o0) /\ env_of dim 2 ny nz mtype mp mt ps tol (o_env o0) /\ reaches o0 [SetStrain 7 e] o fs /\ last_set 7 e [SetStrain 7 e] /\
  step one_hom (o, fs) = Ok (o', fs', r) /\ lookup 7 (o_gps o) = Some g /\ o_env o = o_env o0 /\ o_ctan o = o_ctan o0 /\ g_n g = None /\ strain_is (o_env o0) g e.
Proof.
  intros Le A. pose proof (construct_ok fuel40 (fun _ => counting) (flat_junk tol) dim 2 ny nz mtype mp mt ps A (flat_total _)) as Q.
  destruct (construct fuel40 (fun _ => counting) (flat_junk tol) dim [2; ny; nz]%Z mtype mp mt ps) as [o0|x] eqn:C; [|destruct Q as (i & Q); elim (counting_good _ _ fuel40_ok Q)].
  destruct Q as ((Ko & _) & (tol' & Et & EV) & _). cbn [flat_junk j_tol] in Et. assert (tol' = tol) by congruence. subst tol'. pose proof (ok_sane o0 Ko) as Sv.
  assert (O0 : is_object o0). { exists dim, 2%Z, ny, nz, mtype, mp, mt, ps, fuel40, (fun _ => counting), (flat_junk tol). split; [exact A|]. split; [apply flat_total|exact C]. }
  destruct (harmless_runs o0 (mkFiles [] [] [] [] []) ([SetStrain 7 e] ++ [one_hom]) O0) as (o' & fs' & fs0 & rs & R0).
  { constructor; [exact Le|]. constructor; [|constructor]. split; [exact fuel40_ok|reflexivity]. }
  rewrite run_app in R0. destruct (run [SetStrain 7 e] (o0, _)) as [((o, fs), rs1)|] eqn:E1; cbn [bind fst snd] in R0; [|discriminate]. cbn [run] in R0.
  destruct (step one_hom (o, fs)) as [((o2, fs2), r)|] eqn:E2; cbn [bind fst snd] in R0; [|discriminate]. clear R0 o' fs' rs.
  assert (Rc : reaches o0 [SetStrain 7 e] o fs) by (eexists _, _; exact E1).
  assert (Ls : last_set 7 e [SetStrain 7 e]) by (exists [], []; split; [reflexivity|intros ? []]).
  destruct (reach_inv o0 _ o fs O0 Rc) as (Ko2 & (Eo & Eo2 & _) & (_ & Hi)).
  destruct (lookup_set o0 _ o fs 7 O0 Rc (or_introl eq_refl)) as (g & Lg). destruct (Hi 7%Z g Lg) as (Q & Hn). specialize (Q e Ls). rewrite Eo in Q.
  assert (N : g_n g = None).
  { destruct Hn as [(Hh & _)|(_ & F)].
    - destruct Hh as (a & x & b & f & q & E & I). destruct a as [|c [|c' a]]; cbn in E; [|discriminate|discriminate]. injection E as _ <-. destruct I.
    - destruct F as (_ & _ & _ & _ & F & _). exact F. }
  exists o0, o, fs, o2, fs2, r, g. repeat (split; [first [exact O0|exact Sv|exact EV|exact Rc|exact Ls|exact E2|exact Lg|exact Eo|exact Eo2|exact N|reflexivity]|]). exact Q.
Qed.
(** every column of a point that is solved is accepted *)
Lemma flat_columns dim ny nz mtype (mp : list flt) mt ps : valid_args dim 2 ny nz mtype mp mt ps -> exists o0 o fs o' fs' r g g' er,
  construct fuel40 (fun _ => counting) (flat_junk (ofZ 0)) dim [2; ny; nz]%Z mtype mp mt ps = Ok o0 /\ reaches o0 [SetStrain 7 eps_h] o fs /\ last_set 7 eps_h [SetStrain 7 eps_h] /\
  step one_hom (o, fs) = Ok (o', fs', r) /\ lookup 7 (o_gps o) = Some g /\ ~ below o g /\ lookup 7 (o_gps o') = Some g' /\ aget (g_err g') 0 = Some er /\ oltb er nr_tol = true /\
  forall i, (0 <= i < nvoi (o_env o0))%Z -> exists er', aget (g_err g') (1 + i) = Some er' /\ oltb er' nr_tol = true.
Proof.
  intros A. destruct (flat_run dim ny nz mtype mp mt ps eps_h (ofZ 0) ltac:(apply Nat.leb_le; reflexivity) A) as (o0 & o & fs & o' & fs' & r & g & C & O0 & Sv & EV & Rc & Ls & E2 & Lg & Eo & _).
  assert (Nb : ~ below o g). { unfold below. rewrite Eo, (eo_tol _ _ _ _ _ _ _ _ _ _ EV). apply never_below. }
  destruct (point_solved o0 _ o fs fuel40 cnt2 o' fs' r 7 g O0 Rc E2 Lg (or_intror Nb)) as (g' & w & k & Lg' & (Wk & _) & So).
  rewrite Eo in *. destruct So as (vo & w1 & nl & it & er & s & Hvo & Fvo & Er & Hst & _ & He0 & _ & _ & Col).
  assert (Wk2 : wok (o_env o0) (set_vold w vo)). { destruct Wk. constructor; try assumption. exact (old_full _ vo Fvo). }
  exists o0, o, fs, o', fs', r, g, g', er. repeat (split; [first [exact C|exact Rc|exact Ls|exact E2|exact Lg|exact Nb|exact Lg'|exact He0|exact (flat_accept _ _ _ _ _ _ _ _ _ _ _ _ _ _ _ _ _ _ EV Sv Wk2 Er)]|]).
  intros i Hi. destruct (Col i Hi) as (w2 & w3 & nl' & it' & er' & s' & (Wf & _) & _ & Er' & _ & He' & _). exists er'. split; [exact He'|]. exact (flat_accept _ _ _ _ _ _ _ _ _ _ _ _ _ _ _ _ _ _ EV Sv Wf Er').
Qed.
Lemma em_range99 : p2 (-40) <= 2 <= p2 99.
Proof. pose proof (p2_1 (-40) ltac:(lia)). split; [lra|]. change 2 with (p2 1). apply Raux.bpow_le. lia. Qed.
Lemma flat_tangents3 : exists o0 o fs o' fs' r g g' er,
  valid_args 3 2 3 4 1 half [0; 2]%Z pair20 /\ total_junk (flat_junk (ofZ 0 : flt)) /\ construct fuel40 (fun _ => counting) (flat_junk (ofZ 0)) 3 [2; 3; 4]%Z 1 half [0; 2]%Z pair20 = Ok o0 /\
  fair_args 3 2 3 4 half pair20 3 1 4 /\ no_plastic [0; 2]%Z /\ moduli3 (map val pair20) (1 / 2) 4 /\ gam (S (Z.to_nat (2 * 3 * 4 * 3))) <= / 2 /\
  46080 * (val (lget half 0) * val (lget half 0)) * (3 * 3) * (4 / (1 / 2)) * (sqrt (INR (Z.to_nat (2 * 3 * 4 * 3))) * gam 165) + gam 12 <= / 2 /\
  reaches o0 [SetStrain 7 eps_h] o fs /\ last_set 7 eps_h [SetStrain 7 eps_h] /\ p2 (-40) <= 2 <= p2 99 /\ (forall v, (0 <= v < 6)%Z -> fin (lget eps_h v) /\ Rabs (val (lget eps_h v)) <= 2) /\
  step one_hom (o, fs) = Ok (o', fs', r) /\ lookup 7 (o_gps o) = Some g /\ ~ below o g /\ lookup 7 (o_gps o') = Some g' /\ aget (g_err g') 0 = Some er /\ oltb er nr_tol = true /\
  forall i, (0 <= i < 6)%Z -> exists er', aget (g_err g') (1 + i) = Some er' /\ oltb er' nr_tol = true.
Proof.
  assert (A : valid_args 3 2 3 4 1 half [0; 2]%Z pair20) by (apply pair_valid; lia).
  destruct (flat_columns 3 3 4 1 half [0; 2]%Z pair20 A) as (o0 & o & fs & o' & fs' & r & g & g' & er & C & Q1 & Q2 & Q3 & Q4 & Q5 & Q6 & Q7 & Q8 & Q9). exists o0, o, fs, o', fs', r, g, g', er.
  pose proof (pair_fair 3 2 3 4 ltac:(lia) ltac:(lia) ltac:(lia)) as FA.
  destruct (built3 fuel40 (fun _ => counting) (flat_junk (ofZ 0)) 2 3 4 1 half [0; 2]%Z pair20 o0 3 1 (1 / 2) 4 A flat_total0 C FA pair_np ltac:(lra) pair_moduli3) as (_ & _ & _ & _ & D & _ & _).
  assert (Nv : nvoi (o_env o0) = 6%Z) by (unfold nvoi; now rewrite D). rewrite Nv in Q9.
  split; [exact A|]. split; [exact flat_total0|]. split; [exact C|]. split; [exact FA|]. split; [exact pair_np|]. split; [exact pair_moduli3|]. split; [apply gam_half; lia|].
  split. { change (lget half 0) with (ofZ 1 : flt). rewrite (proj2 int1). apply rho_small; [lia|lra]. }
  split; [exact Q1|]. split; [exact Q2|]. split; [exact em_range99|]. split; [exact eps_small|]. repeat (split; [assumption|]). exact Q9.
Qed.
Lemma flat_tangents2 : exists o0 o fs o' fs' r g g' er,
  valid_args 2 2 4 1 1 half [0; 2]%Z pair20 /\ total_junk (flat_junk (ofZ 0 : flt)) /\ construct fuel40 (fun _ => counting) (flat_junk (ofZ 0)) 2 [2; 4; 1]%Z 1 half [0; 2]%Z pair20 = Ok o0 /\
  fair_args 2 2 4 1 half pair20 3 1 4 /\ moduli2 (map val pair20) (1 / 2) 4 /\ gam (S (Z.to_nat (2 * 4 * 2))) <= / 2 /\
  4608 * (val (lget half 0) * val (lget half 0)) * (3 * 3) * (4 / (1 / 2)) * (sqrt (INR (Z.to_nat (2 * 4 * 2))) * gam 165) + gam 12 <= / 2 /\
  reaches o0 [SetStrain 7 eps_h] o fs /\ last_set 7 eps_h [SetStrain 7 eps_h] /\ p2 (-40) <= 2 <= p2 99 /\ (forall v, (0 <= v < 3)%Z -> fin (lget eps_h v) /\ Rabs (val (lget eps_h v)) <= 2) /\
  step one_hom (o, fs) = Ok (o', fs', r) /\ lookup 7 (o_gps o) = Some g /\ ~ below o g /\ lookup 7 (o_gps o') = Some g' /\ aget (g_err g') 0 = Some er /\ oltb er nr_tol = true /\
  forall i, (0 <= i < 3)%Z -> exists er', aget (g_err g') (1 + i) = Some er' /\ oltb er' nr_tol = true.
Proof.
  assert (A : valid_args 2 2 4 1 1 half [0; 2]%Z pair20) by (apply pair_valid; lia).
  destruct (flat_columns 2 4 1 1 half [0; 2]%Z pair20 A) as (o0 & o & fs & o' & fs' & r & g & g' & er & C & Q1 & Q2 & Q3 & Q4 & Q5 & Q6 & Q7 & Q8 & Q9). exists o0, o, fs, o', fs', r, g, g', er.
  pose proof (pair_fair 2 2 4 1 ltac:(lia) ltac:(lia) ltac:(lia)) as FA.
  destruct (built2 fuel40 (fun _ => counting) (flat_junk (ofZ 0)) 2 4 1 1 half [0; 2]%Z pair20 o0 3 1 (1 / 2) 4 A flat_total0 C FA ltac:(lra) pair_moduli2) as (_ & _ & _ & _ & D & _ & _).
  assert (Nv : nvoi (o_env o0) = 3%Z) by (unfold nvoi; now rewrite D). rewrite Nv in Q9.
  split; [exact A|]. split; [exact flat_total0|]. split; [exact C|]. split; [exact FA|]. split; [exact pair_moduli2|]. split; [apply gam_half; lia|].
  split. { change (lget half 0) with (ofZ 1 : flt). rewrite (proj2 int1). apply rho_small; [lia|lra]. }
  split; [exact Q1|]. split; [exact Q2|]. split; [exact em_range99|]. split; [intros v Hv; apply eps_small; lia|]. repeat (split; [assumption|]). exact Q9.
Qed.

(** ** The shortcut *)
(** 2^1000 *)
Definition huge : flt := @B754_finite 53 1024 false 4503599627370496 948 eq_refl.
Lemma huge_val : fin huge /\ val huge = p2 1000.
Proof.
  split; [reflexivity|]. cbn [huge B2R]. change 1000%Z with (52 + 948)%Z. rewrite Raux.bpow_plus. unfold Defs.F2R. cbn [Defs.Fnum Defs.Fexp Zaux.cond_Zopp]. reflexivity.
Qed.
Lemma pred_bd n (c e : Z -> flt) : (0 <= n <= 6)%Z -> (forall j, (0 <= j < n)%Z -> bd 905 (c j)) -> (forall j, (0 <= j < n)%Z -> bd 60 (e j)) -> bd 970 (sumf (zrange 0 n) (fun j => omul (c j) (e j))).
Proof.
  intros Hn Hc He. apply (bd_sum 966 3); [|rewrite length_zrange; lia|rewrite length_zrange; change (2 ^ 3)%Z with 8%Z; lia|lia|lia]. intros j Hj. apply in_zrange in Hj. exact (bd_mul 905 60 _ _ (Hc j Hj) (He j Hj) ltac:(lia)).
Qed.
Lemma below_huge (o : obj flt) g : v_inv_tol (o_env o) = huge -> (3 <= nvoi (o_env o) <= 6)%Z -> (forall i j, (0 <= i < nvoi (o_env o))%Z -> (0 <= j < nvoi (o_env o))%Z -> bd 905 (oval (o_ctan o) (i * nvoi (o_env o) + j))) ->
  (forall j, (0 <= j < nvoi (o_env o))%Z -> bd 60 (oval (g_strain g) j)) -> below o g.
Proof.
  intros T Nv Hc He. destruct huge_val as (Fh & Vh). unfold below. rewrite T.
  assert (P : forall i, (0 <= i < 3)%Z -> bd 970 (predicted o g i)). { intros i Hi. apply (pred_bd (nvoi (o_env o)) (fun j => oval (o_ctan o) (i * nvoi (o_env o) + j)) (oval (g_strain g))); [lia|intros j Hj; apply Hc; lia|exact He]. }
  assert (B : bd 974 (predicted_trace o g)).
  { unfold predicted_trace. pose proof (bd_add 970 _ _ (P 0 ltac:(lia)) (P 1 ltac:(lia)) ltac:(lia))%Z as B1. destruct (v_dim (o_env o) =? 2)%Z; [exact (bd_le _ 974 _ B1 ltac:(lia))|].
    exact (bd_add 972 _ _ B1 (bd_le _ 972 _ (P 2 ltac:(lia)) ltac:(lia)) ltac:(lia))%Z. }
  destruct B as (F & B). apply (proj2 (lt_val _ _ (proj2 (fin_abs _) F) Fh)). rewrite Vh, val_abs. eapply Rle_lt_trans; [exact B|]. apply Raux.bpow_lt. lia.
Qed.
Lemma step_col (s : flt) : bd 877 s -> bd 905 (odiv s d_eps).
Proof.
  intro B. destruct step_val as (Fd & Bd & _). change 905%Z with (877 - -27 + 1)%Z. apply bd_div; [exact B|exact Fd| |lia]. rewrite Rabs_pos_eq by lra. exact step_p2.
Qed.
Lemma step_strain n i v : (0 <= i < n)%Z -> (0 <= v < 6)%Z -> fin (lget (bump n (AssemblyModel.zeros n) i) v) /\ Rabs (val (lget (bump n (AssemblyModel.zeros n) i : list flt) v)) <= (1 + uro) * (0 + val d_eps).
Proof. intros Hi Hv. apply bump_all; [exact Hi|intros v2 _; apply fin_zeros|pose proof (Raux.bpow_gt_0 Zaux.radix2 300); lra|exact Hv]. Qed.
Lemma step_range : p2 (-40) <= (1 + uro) * (0 + val d_eps) <= p2 100.
Proof. apply bumped_range. pose proof (Raux.bpow_gt_0 Zaux.radix2 99). lra. Qed.
Lemma eps_60 v : (0 <= v < 6)%Z -> bd 60 (lget eps_h v).
Proof. intro Hv. destruct (eps_small v Hv) as (F & B). split; [exact F|]. eapply Rle_trans; [exact B|]. change 2 with (p2 1). apply Raux.bpow_le. lia. Qed.
Lemma em_range60 : 0 <= 2 <= p2 60.
Proof. split; [lra|]. change 2 with (p2 1). apply Raux.bpow_le. lia. Qed.
Lemma flat_linear3 : exists o0 o fs o' fs' r g,
  valid_args 3 2 3 4 1 half [0; 2]%Z pair20 /\ total_junk (flat_junk huge) /\ construct fuel40 (fun _ => counting) (flat_junk huge) 3 [2; 3; 4]%Z 1 half [0; 2]%Z pair20 = Ok o0 /\
  fair_args 3 2 3 4 half pair20 3 1 4 /\ no_plastic [0; 2]%Z /\ moduli3 (map val pair20) (1 / 2) 4 /\ gam (S (Z.to_nat (2 * 3 * 4 * 3))) <= / 2 /\
  46080 * (val (lget half 0) * val (lget half 0)) * (3 * 3) * (4 / (1 / 2)) * (sqrt (INR (Z.to_nat (2 * 3 * 4 * 3))) * gam 165) + gam 12 <= / 2 /\
  (forall i w w' nl it er s, wok (o_env o0) w -> respond fuel40 counting (o_env o0) (bump 6 (AssemblyModel.zeros 6) i) w = Ok (w', nl, it, er, s) -> oltb er nr_tol = true) /\
  reaches o0 [SetStrain 7 eps_h] o fs /\ last_set 7 eps_h [SetStrain 7 eps_h] /\ 0 <= 2 <= p2 60 /\ (forall v, (0 <= v < 6)%Z -> fin (lget eps_h v) /\ Rabs (val (lget eps_h v)) <= 2) /\
  step one_hom (o, fs) = Ok (o', fs', r) /\ lookup 7 (o_gps o) = Some g /\ g_n g = None /\ below o g.
Proof.
  assert (A : valid_args 3 2 3 4 1 half [0; 2]%Z pair20) by (apply pair_valid; lia). pose proof (flat_total huge) as J.
  destruct (flat_run 3 3 4 1 half [0; 2]%Z pair20 eps_h huge ltac:(apply Nat.leb_le; reflexivity) A) as (o0 & o & fs & o' & fs' & r & g & C & O0 & Sv & EV & Rc & Ls & E2 & Lg & Eo & Eo2 & N & Q). exists o0, o, fs, o', fs', r, g.
  pose proof (pair_fair 3 2 3 4 ltac:(lia) ltac:(lia) ltac:(lia)) as FA.
  assert (Th : 46080 * (val (lget half 0) * val (lget half 0)) * (3 * 3) * (4 / (1 / 2)) * (sqrt (INR (Z.to_nat (2 * 3 * 4 * 3))) * gam 165) + gam 12 <= / 2).
  { change (lget half 0) with (ofZ 1 : flt). rewrite (proj2 int1). apply rho_small; [lia|lra]. }
  assert (G : gam (S (Z.to_nat (2 * 3 * 4 * 3))) <= / 2) by (apply gam_half; lia).
  destruct (built3 fuel40 (fun _ => counting) (flat_junk huge) 2 3 4 1 half [0; 2]%Z pair20 o0 3 1 (1 / 2) 4 A J C FA pair_np ltac:(lra) pair_moduli3) as (_ & _ & FV & St & D & EN & PM).
  destruct (gap_args3 fuel40 (fun _ => counting) (flat_junk huge) 2 3 4 1 half [0; 2]%Z pair20 o0 3 1 (1 / 2) 4 A J C FA pair_np ltac:(lra) pair_moduli3 Th) as (Th2 & _).
  assert (Nv : nvoi (o_env o0) = 6%Z) by (unfold nvoi; now rewrite D).
  assert (Acc : forall i w w' nl it er s, wok (o_env o0) w -> respond fuel40 counting (o_env o0) (bump 6 (AssemblyModel.zeros 6) i) w = Ok (w', nl, it, er, s) -> oltb er nr_tol = true).
  { intros i w w' nl it er s K Er. exact (flat_accept _ _ _ _ _ _ _ _ _ _ _ _ _ _ _ _ _ _ EV Sv K Er). }
  split; [exact A|]. split; [exact J|]. split; [exact C|]. split; [exact FA|]. split; [exact pair_np|]. split; [exact pair_moduli3|]. split; [exact G|]. split; [exact Th|]. split; [exact Acc|].
  split; [exact Rc|]. split; [exact Ls|]. split; [exact em_range60|]. split; [exact eps_small|]. split; [exact E2|]. split; [exact Lg|]. split; [exact N|].
  apply below_huge; rewrite ?Eo, ?Eo2, ?Nv; [exact (eo_tol _ _ _ _ _ _ _ _ _ _ EV)|lia| |].
  - intros i v Hi Hv. destruct (any_columns fuel40 (fun _ => counting) (flat_junk huge) 3 2 3 4 1 half [0; 2]%Z pair20 o0 A J C v ltac:(rewrite Nv; exact Hv)) as (w & w' & nl & it & er & s & K & Er & Hc). rewrite Nv in *.
    unfold oval. rewrite (Hc i Hi). apply step_col. pose proof G as G2. rewrite <- EN in G2.
    exact (proj2 (finite_stress3 (o_env o0) 3 4 _ (1 / 2) (bump 6 (AssemblyModel.zeros 6) v) fuel40 counting w w' nl it er s FV D step_range (fun v2 Hv2 => proj1 (step_strain 6 v v2 Hv Hv2)) (fun v2 Hv2 => proj2 (step_strain 6 v v2 Hv Hv2)) ltac:(lra) PM St G2 Th2 K Er (Acc v w w' nl it er s K Er)) i Hi).
  - intros v Hv. unfold oval. rewrite (Q v) by (rewrite Nv; exact Hv). exact (eps_60 v Hv).
Qed.
Lemma flat_linear2 : exists o0 o fs o' fs' r g,
  valid_args 2 2 4 1 1 half [0; 2]%Z pair20 /\ total_junk (flat_junk huge) /\ construct fuel40 (fun _ => counting) (flat_junk huge) 2 [2; 4; 1]%Z 1 half [0; 2]%Z pair20 = Ok o0 /\
  fair_args 2 2 4 1 half pair20 3 1 4 /\ moduli2 (map val pair20) (1 / 2) 4 /\ gam (S (Z.to_nat (2 * 4 * 2))) <= / 2 /\
  4608 * (val (lget half 0) * val (lget half 0)) * (3 * 3) * (4 / (1 / 2)) * (sqrt (INR (Z.to_nat (2 * 4 * 2))) * gam 165) + gam 12 <= / 2 /\
  (forall i w w' nl it er s, wok (o_env o0) w -> respond fuel40 counting (o_env o0) (bump 3 (AssemblyModel.zeros 3) i) w = Ok (w', nl, it, er, s) -> oltb er nr_tol = true) /\
  reaches o0 [SetStrain 7 eps_h] o fs /\ last_set 7 eps_h [SetStrain 7 eps_h] /\ 0 <= 2 <= p2 60 /\ (forall v, (0 <= v < 3)%Z -> fin (lget eps_h v) /\ Rabs (val (lget eps_h v)) <= 2) /\
  step one_hom (o, fs) = Ok (o', fs', r) /\ lookup 7 (o_gps o) = Some g /\ g_n g = None /\ below o g.
Proof.
  assert (A : valid_args 2 2 4 1 1 half [0; 2]%Z pair20) by (apply pair_valid; lia). pose proof (flat_total huge) as J.
  destruct (flat_run 2 4 1 1 half [0; 2]%Z pair20 eps_h huge ltac:(apply Nat.leb_le; reflexivity) A) as (o0 & o & fs & o' & fs' & r & g & C & O0 & Sv & EV & Rc & Ls & E2 & Lg & Eo & Eo2 & N & Q). exists o0, o, fs, o', fs', r, g.
  pose proof (pair_fair 2 2 4 1 ltac:(lia) ltac:(lia) ltac:(lia)) as FA.
  assert (Th : 4608 * (val (lget half 0) * val (lget half 0)) * (3 * 3) * (4 / (1 / 2)) * (sqrt (INR (Z.to_nat (2 * 4 * 2))) * gam 165) + gam 12 <= / 2).
  { change (lget half 0) with (ofZ 1 : flt). rewrite (proj2 int1). apply rho_small; [lia|lra]. }
  assert (G : gam (S (Z.to_nat (2 * 4 * 2))) <= / 2) by (apply gam_half; lia).
  destruct (built2 fuel40 (fun _ => counting) (flat_junk huge) 2 4 1 1 half [0; 2]%Z pair20 o0 3 1 (1 / 2) 4 A J C FA ltac:(lra) pair_moduli2) as (_ & _ & FV & St & D & EN & PM).
  destruct (gap_args2 fuel40 (fun _ => counting) (flat_junk huge) 2 4 1 1 half [0; 2]%Z pair20 o0 3 1 (1 / 2) 4 A J C FA ltac:(lra) pair_moduli2 Th) as (Th2 & _).
  assert (Nv : nvoi (o_env o0) = 3%Z) by (unfold nvoi; now rewrite D).
  assert (Acc : forall i w w' nl it er s, wok (o_env o0) w -> respond fuel40 counting (o_env o0) (bump 3 (AssemblyModel.zeros 3) i) w = Ok (w', nl, it, er, s) -> oltb er nr_tol = true).
  { intros i w w' nl it er s K Er. exact (flat_accept _ _ _ _ _ _ _ _ _ _ _ _ _ _ _ _ _ _ EV Sv K Er). }
  split; [exact A|]. split; [exact J|]. split; [exact C|]. split; [exact FA|]. split; [exact pair_moduli2|]. split; [exact G|]. split; [exact Th|]. split; [exact Acc|].
  split; [exact Rc|]. split; [exact Ls|]. split; [exact em_range60|]. split; [intros v Hv; apply eps_small; lia|]. split; [exact E2|]. split; [exact Lg|]. split; [exact N|].
  apply below_huge; rewrite ?Eo, ?Eo2, ?Nv; [exact (eo_tol _ _ _ _ _ _ _ _ _ _ EV)|lia| |].
  - intros i v Hi Hv. destruct (any_columns fuel40 (fun _ => counting) (flat_junk huge) 2 2 4 1 1 half [0; 2]%Z pair20 o0 A J C v ltac:(rewrite Nv; exact Hv)) as (w & w' & nl & it & er & s & K & Er & Hc). rewrite Nv in *.
    unfold oval. rewrite (Hc i Hi). apply step_col. pose proof G as G2. rewrite <- EN in G2.
    exact (proj2 (finite_stress2 (o_env o0) 3 4 _ (1 / 2) (bump 3 (AssemblyModel.zeros 3) v) fuel40 counting w w' nl it er s FV D step_range (fun v2 Hv2 => proj1 (step_strain 3 v v2 Hv Hv2)) (fun v2 Hv2 => proj2 (step_strain 3 v v2 Hv Hv2)) ltac:(lra) PM St G2 Th2 K Er (Acc v w w' nl it er s K Er)) i Hi).
  - intros v Hv. unfold oval. rewrite (Q v) by (rewrite Nv; exact Hv). apply eps_60. lia.
Qed.
