(** The committed history along any sequence of calls: hardening never decreases, plastic strains
    keep the volume, and the yield stresses stay what the theorems on equilibrium ask for (C93, C94). *)
From Coq Require Import Reals Lra ZifyBool.
From Verif Require Import Base Scalar EllSpec EllModel EllFinal Grid CgPure CgFinal CgProps AssemblyModel AsmPure AsmBnd AsmRun FemGen FemAve AsmMat FemMat FemMat2 FemDef FemPd FemRhs FemEquil PlastProps
  PlastRef AsmSpec AsmProps AsmPoint AsmEquil MicroModel OutputModel NewtonBase NewtonReal ApiBase ApiRun ApiHist Build ApiExact ApiSpec ApiProps ApiCommit RespondReal OneCell Tangent MonoPoint MonoBody EnergyProps ApiCases AsmCases AsmEx.
Open Scope Z_scope.
Open Scope R_scope.

(** plastic strain and hardening of a Gauss point in internal variables *)
Definition holds_at (V : env R) (vo : Z -> option R) (ex ey ez p : Z) (ep : Z -> R) (al : R) : Prop :=
  (forall i, (0 <= i < 6)%Z -> vo (var3 V ex ey ez p i) = Some (ep i)) /\ vo (var3 V ex ey ez p 6) = Some al.
(** at every plastic Gauss point: no negative hardening, no volume change, no loss from vo to vk *)
Definition grown (V : env R) (vo vk : Z -> option R) : Prop :=
  forall ex ey ez p m, is_cell3 V ex ey ez -> (0 <= p < 8)%Z -> cell_mat V ex ey ez m -> m_plast m = Some true ->
  exists ep al ep' al', holds_at V vo ex ey ez p ep al /\ holds_at V vk ex ey ez p ep' al' /\ 0 <= al <= al' /\ trace6 ep = 0 /\ trace6 ep' = 0.
Definition hardens (V : env R) : Prop :=
  forall ex ey ez m, is_cell3 V ex ey ez -> cell_mat V ex ey ez m -> m_plast m = Some true -> 0 <= m_Ka m /\ 0 <= m_Sy m.

Lemma var3_in V ex ey ez p i : body3 V -> is_cell3 V ex ey ez -> (0 <= p < 8)%Z -> (0 <= i < 7)%Z -> (0 <= var3 V ex ey ez p i < nvars V)%Z.
Proof.
  intros (S & G & D) Hc Hp Hi. rewrite var3_ix. apply in_els3 in Hc. pose proof (ix3_range V _ D Hc). rewrite nvars_eq. unfold intvar_ix. lia.
Qed.
Lemma holds_ext V vo vo' ex ey ez p ep al : body3 V -> is_cell3 V ex ey ez -> (0 <= p < 8)%Z -> (forall i, (0 <= i < nvars V)%Z -> vo' i = vo i) ->
  holds_at V vo ex ey ez p ep al -> holds_at V vo' ex ey ez p ep al.
Proof. intros B Hc Hp E (H1 & H2). split; [intros i Hi|]; rewrite E by (apply var3_in; try assumption; lia); auto. Qed.
Lemma holds_fun V vo ex ey ez p ep al ep' al' : holds_at V vo ex ey ez p ep al -> holds_at V vo ex ey ez p ep' al' -> al = al' /\ trace6 ep = trace6 ep'.
Proof.
  intros (H1 & H2) (H3 & H4). rewrite H2 in H4. injection H4 as ->. split; [reflexivity|].
  assert (E : forall i, (0 <= i < 6)%Z -> ep i = ep' i) by (intros i Hi; specialize (H1 i Hi); rewrite (H3 i Hi) in H1; now injection H1 as ->).
  unfold trace6. now rewrite !E by lia.
Qed.
Lemma grown_ext V a b a' b' : body3 V -> (forall i, (0 <= i < nvars V)%Z -> a' i = a i) -> (forall i, (0 <= i < nvars V)%Z -> b' i = b i) -> grown V a b -> grown V a' b'.
Proof.
  intros B Ea Eb H ex ey ez p m Hc Hp Hm P. destruct (H ex ey ez p m Hc Hp Hm P) as (ep & al & ep' & al' & H1 & H2 & R).
  exists ep, al, ep', al'. split; [exact (holds_ext V a a' _ _ _ _ _ _ B Hc Hp Ea H1)|]. split; [exact (holds_ext V b b' _ _ _ _ _ _ B Hc Hp Eb H2)|exact R].
Qed.
Lemma grown_left V a b : grown V a b -> grown V a a.
Proof. intros H ex ey ez p m Hc Hp Hm P. destruct (H ex ey ez p m Hc Hp Hm P) as (ep & al & ep' & al' & H1 & H2 & (A0 & A1) & T1 & T2). exists ep, al, ep, al. repeat (split; [assumption || lra|]). assumption. Qed.
Lemma grown_right V a b : grown V a b -> grown V b b.
Proof. intros H ex ey ez p m Hc Hp Hm P. destruct (H ex ey ez p m Hc Hp Hm P) as (ep & al & ep' & al' & H1 & H2 & (A0 & A1) & T1 & T2). exists ep', al', ep', al'. repeat (split; [assumption || lra|]). assumption. Qed.
Lemma grown_trans V a b c : grown V a b -> grown V b c -> grown V a c.
Proof.
  intros H K ex ey ez p m Hc Hp Hm P. destruct (H ex ey ez p m Hc Hp Hm P) as (ep & al & ep' & al' & H1 & H2 & (A0 & A1) & T1 & T2).
  destruct (K ex ey ez p m Hc Hp Hm P) as (eq & bl & eq' & bl' & K1 & K2 & (B0 & B1) & U1 & U2). destruct (holds_fun _ _ _ _ _ _ _ _ _ _ H2 K1) as (<- & _).
  exists ep, al, eq', bl'. repeat (split; [assumption || lra|]). assumption.
Qed.
Lemma grown_zero V a : body3 V -> (forall i, (0 <= i < nvars V)%Z -> a i = Some 0) -> grown V a a.
Proof.
  intros B E ex ey ez p m Hc Hp Hm P. exists (fun _ => 0), 0, (fun _ => 0), 0.
  assert (Hh : holds_at V a ex ey ez p (fun _ => 0) 0) by (split; [intros i Hi|]; apply E; apply var3_in; try assumption; lia).
  split; [exact Hh|]. split; [exact Hh|]. unfold trace6. split; [lra|]. split; ring.
Qed.

(** one response *)
Lemma respond_grown V fuel pk eps w w' nl it er s : body3 V -> adm V -> hardens V -> wok V w -> respond fuel pk V eps w = Ok (w', nl, it, er, s) ->
  grown V (aget (w_vold w)) (aget (w_vold w)) -> grown V (aget (w_vold w)) (aget (w_vnew w')).
Proof.
  intros B AD HD K E H. pose proof B as (S & G & D). destruct (respond_parts _ _ _ _ _ _ _ _ _ _ E) as (u & w1 & vn & Eu & En & Es & ->).
  destruct (displ_ok V eps (w_u w) S (wk_u _ _ K)) as (u2 & Eu2 & Fu). rewrite Eu in Eu2. injection Eu2 as <-.
  assert (K1 : wok V (set_u w u)) by (destruct K; constructor; assumption).
  destruct (newton_real V fuel pk (set_u w u) w1 nl it er S G K1 En) as (Sb & O1 & K2 & _). cbn [set_u w_vold] in O1. cbn [set_vnew w_vnew].
  pose proof (wok_vars3 V w1 D K2) as W1. rewrite O1 in W1, Es.
  destruct (writes_spec V (w_u w1) (w_vold w) (w_vnew w1) B (wk_u _ _ K2) W1) as (s1 & v1 & E1 & _ & Q & _). rewrite Es in E1. injection E1 as <- <-.
  intros ex ey ez p m Hc Hp Hm P. destruct (H ex ey ez p m Hc Hp Hm P) as (ep & al & _ & _ & H1 & _ & (A0 & _) & T1 & _).
  destruct (Q ex ey ez p 6%Z m Hc Hp ltac:(lia) Hm) as (Q6 & _). destruct (Q6 P) as (e & nl' & l & vp & Ee & Et & E6). clear Q6.
  assert (Qi : forall i, (0 <= i < 7)%Z -> aget vn (var3 V ex ey ez p i) = aget vp (var3 V ex ey ez p i)).
  { intros i Hi. destruct (Q ex ey ez p i m Hc Hp Hi Hm) as (Q6 & _). destruct (Q6 P) as (e' & nl2 & l2 & vp2 & Ee2 & Et2 & E62). rewrite Ee in Ee2. injection Ee2 as <-.
    rewrite Et in Et2. injection Et2 as _ _ <-. exact E62. }
  destruct (point_step V (w_vold w) (w_vnew w1) ex ey ez p e m B W1 Hc Hp Hm P) as (vn' & Et' & _ & G1 & G2 & _). rewrite Et in Et'. injection Et' as En' El Ev. subst vn'.
  match type of G2 with _ = Some (ps_alpha ?q) => set (ps := q) in * end.
  destruct (plastic_point V (w_vold w) (w_vnew w1) ex ey ez p m e nl' (lget l) ep al (lget (ps_eps_p ps)) (ps_alpha ps) vp) as (_ & L & _ & _ & T & _).
  { split; [exact B|]. split; [exact W1|]. split; [exact Hc|]. split; [exact Hp|]. split; [exact Hm|]. split; [exact P|]. split; [exact (proj1 H1)|]. split; [exact (proj2 H1)|].
    split; [exists l; split; [exact Et|reflexivity]|]. split; [exact G1|exact G2]. }
  { destruct (cell_m V ex ey ez m S D Hc Hm) as (<- & _). apply adm_mu. apply AD. apply (ix3_range V _ D). now apply in_els3. }
  { now apply (HD ex ey ez m). }
  { destruct (HD ex ey ez m Hc Hm P). assert (0 <= m_Ka m * al) by (apply Rmult_le_pos; assumption). lra. }
  exists ep, al, (lget (ps_eps_p ps)), (ps_alpha ps). split; [exact H1|]. split; [|split; [lra|split; [exact T1|congruence]]].
  split; [intros i Hi; rewrite Qi by lia; now apply G1|rewrite Qi by lia; exact G2].
Qed.

(** ** sequences of calls *)
Definition trial_vars (V : env R) (g : gp R) : Z -> option R := match g_n g, g_k g with Some _, Some k => aget k | _, _ => committed V g end.
Definition grows (V : env R) (o : obj R) : Prop := forall id g, lookup id (o_gps o) = Some g -> grown V (committed V g) (trial_vars V g).
Lemma committed_zero V (g : gp R) i : g_n g = None -> committed V g i = Some 0.
Proof. intros E. unfold committed. rewrite E. f_equal. apply dec01_R. Qed.

Section Calls.
Variable o0 : obj R.
Notation V := (o_env o0).
Hypotheses (O : is_object o0) (BD : body3 V) (AD : adm V) (HD : hardens V).
Lemma step_grows cs o fs c o' fs' r : reaches o0 cs o fs -> grows V o -> step c (o, fs) = Ok (o', fs', r) ->
  grows V o' /\ forall id g, lookup id (o_gps o) = Some g -> exists g', lookup id (o_gps o') = Some g' /\ grown V (committed V g) (committed V g').
Proof.
  intros R0 Hg E. destruct (reach_inv o0 cs o fs O R0) as (K & (Ev & _) & _). pose proof (ok_sane o K) as S.
  assert (Same : o_gps o' = o_gps o -> grows V o' /\ forall id g, lookup id (o_gps o) = Some g -> exists g', lookup id (o_gps o') = Some g' /\ grown V (committed V g) (committed V g')).
  { intros Q. split; [intros id g L; rewrite Q in L; exact (Hg id g L)|]. intros id g L. exists g. rewrite Q. split; [exact L|]. exact (grown_left _ _ _ (Hg id g L)). }
  destruct c as [id' eps|id'|id'|id'|f orc| |f pk t id'|].
  - pose proof (step_ok (SetStrain id' eps) o fs K) as H. rewrite E in H. destruct H as (_ & _ & (_ & Oth & g1 & L1 & _ & X)). split.
    + intros id g L. destruct (Z.eq_dec id id') as [->|N]; [|rewrite (Oth id N) in L; exact (Hg id g L)].
      rewrite L1 in L. injection L as <-. destruct (lookup id' (o_gps o)) as [g2|] eqn:L2.
      * specialize (Hg id' g2 L2). rewrite X. exact Hg.
      * destruct X as ((_ & _ & _ & _ & N1 & N2) & _). unfold trial_vars. rewrite N1. apply grown_zero; [exact BD|]. intros i _. now apply committed_zero.
    + intros id g L. destruct (Z.eq_dec id id') as [->|N].
      * exists g1. split; [exact L1|]. rewrite L in X. rewrite X. exact (grown_left _ _ _ (Hg id' g L)).
      * exists g. rewrite (Oth id N). split; [exact L|]. exact (grown_left _ _ _ (Hg id g L)).
  - destruct (queries_pure o fs (GetStress id') o' fs' r ltac:(exists id'; auto) E) as (-> & _). now apply Same.
  - destruct (queries_pure o fs (GetCtan id') o' fs' r ltac:(exists id'; auto) E) as (-> & _). now apply Same.
  - destruct (queries_pure o fs (NlFlag id') o' fs' r ltac:(exists id'; auto) E) as (-> & _). now apply Same.
  - destruct (homogenize_keeps o0 cs o fs f orc o' fs' r O R0 E) as (Ids & H). rewrite Ev in H.
    assert (Fwd : forall id g g', lookup id (o_gps o) = Some g -> lookup id (o_gps o') = Some g' -> grown V (committed V g') (trial_vars V g')).
    { intros id g g' L L'. destruct (H id g L) as (g2 & L2 & _ & C). rewrite L' in L2. injection L2 as <-.
      assert (Lin : g_n g = None -> below o g -> g_n g' = None).
      { intros Hn Hb. destruct (linear_point o0 cs o fs f orc o' fs' r id g O R0 E L Hn Hb) as (_ & _ & F).
        cbn [step] in F. injection F as F. unfold get_nl_flag in F. rewrite L' in F. destruct (g_n g'); [discriminate|reflexivity]. }
      destruct (Classical_Prop.classic (g_n g = None /\ below o g)) as [(Hn & Hb)|N].
      - unfold trial_vars. rewrite (Lin Hn Hb). apply grown_zero; [exact BD|]. intros i _. apply committed_zero. now apply Lin.
      - destruct (point_solved o0 cs o fs f orc o' fs' r id g O R0 E L) as (g1 & w & j & L1 & W & vo & w1 & nl & it & er & s & Vo & Fv & Re & _ & _ & _ & Nf & Nt & _); [tauto|].
        rewrite L' in L1. injection L1 as <-. rewrite Ev in *. destruct nl.
        + destruct (Nt eq_refl) as (Hn & k & Ek & Hk). unfold trial_vars. rewrite Ek. destruct (g_n g') as [n'|] eqn:En'; [|contradiction].
          apply (grown_ext V (aget vo) (aget (w_vnew w1))); [exact BD|intros i Hi; rewrite Vo by exact Hi; now rewrite C by exact Hi|intros i _; apply Hk|].
          assert (Wv : wok V (set_vold w vo)).
          { destruct W as (Wk & _). destruct Wk. constructor; try assumption. intros e q i He Hq Hi _. cbn [set_vold w_vold]. apply (proj2 Fv). rewrite nvars_eq. unfold intvar_ix. lia. }
          apply (respond_grown V f (orc j 0%Z) _ (set_vold w vo) w1 true it er s BD AD HD Wv Re). cbn [set_vold w_vold].
          apply (grown_ext V (committed V g) (committed V g)); [exact BD|exact Vo|exact Vo|]. exact (grown_left _ _ _ (Hg id g L)).
        + destruct (Nf eq_refl) as (E1 & E2). specialize (Hg id g L). unfold trial_vars, committed in *. rewrite E1, E2. exact Hg. }
    split.
    + intros id g' L'. destruct (lookup id (o_gps o)) as [g|] eqn:L; [exact (Fwd id g g' L L')|]. exfalso.
      apply (proj1 (lookup_none id (o_gps o))) in L. apply lookup_in in L'. destruct L' as (I & <-). apply L. rewrite <- Ids. now apply in_map.
    + intros id g L. destruct (H id g L) as (g' & L' & _ & C). exists g'. split; [exact L'|].
      apply (grown_ext V (committed V g) (committed V g)); [exact BD|reflexivity|exact C|]. exact (grown_left _ _ _ (Hg id g L)).
  - destruct (update_frame o0 cs o fs O R0) as (o2 & E2 & _ & _ & Ids & H). rewrite E in E2. injection E2 as <- _ _.
    assert (Fwd : forall id g g', lookup id (o_gps o) = Some g -> lookup id (o_gps o') = Some g' -> grown V (committed V g) (committed V g') /\ grown V (committed V g') (trial_vars V g')).
    { intros id g g' L L'. destruct (H id g L) as (g2 & L2 & _ & _ & _ & _ & _ & Hk & Hf). rewrite L' in L2. injection L2 as <-.
      destruct (commit_pair o0 cs o fs o' fs' r id g O R0 E L) as (g2 & L2 & C0 & C1). rewrite L' in L2. injection L2 as <-. rewrite Ev in C0, C1.
      unfold get_nl_flag in Hf. rewrite L, L' in Hf. specialize (Hg id g L). destruct (g_n g) as [n|] eqn:En.
      - destruct C1 as (k & Ek & C1); [discriminate|]. destruct (g_n g') as [n'|] eqn:En'; [|discriminate].
        unfold trial_vars in *. rewrite En, Ek in Hg. rewrite En', Hk, Ek. split.
        + exact (grown_ext V _ _ _ _ BD (fun i _ => eq_refl) C1 Hg).
        + exact (grown_ext V _ _ _ _ BD C1 (fun i _ => eq_refl) (grown_right _ _ _ Hg)).
      - assert (N' : g_n g' = None) by (destruct (g_n g'); [discriminate|reflexivity]). unfold trial_vars. rewrite N'. split.
        + apply (grown_ext V (committed V g') (committed V g')); [exact BD|intros i _; rewrite !committed_zero by assumption; reflexivity|reflexivity|].
          apply grown_zero; [exact BD|]. intros i _. now apply committed_zero.
        + apply grown_zero; [exact BD|]. intros i _. now apply committed_zero. }
    split.
    + intros id g' L'. destruct (lookup id (o_gps o)) as [g|] eqn:L; [exact (proj2 (Fwd id g g' L L'))|]. exfalso.
      apply (proj1 (lookup_none id (o_gps o))) in L. apply lookup_in in L'. destruct L' as (I & <-). apply L. rewrite <- Ids. now apply in_map.
    + intros id g L. destruct (H id g L) as (g' & L' & _). exists g'. split; [exact L'|]. exact (proj1 (Fwd id g g' L L')).
  - destruct (output_keeps o0 cs o fs _ o' fs' r O R0 ltac:(right; eauto) E) as (Q & _). now apply Same.
  - destruct (output_keeps o0 cs o fs _ o' fs' r O R0 ltac:(left; reflexivity) E) as (Q & _). now apply Same.
Qed.
Lemma run_grows bs : forall cs o fs o' fs' rs, reaches o0 cs o fs -> grows V o -> run bs (o, fs) = Ok (o', fs', rs) ->
  grows V o' /\ forall id g, lookup id (o_gps o) = Some g -> exists g', lookup id (o_gps o') = Some g' /\ grown V (committed V g) (committed V g').
Proof.
  induction bs as [|c bs IH]; intros cs o fs o' fs' rs R0 Hg E; cbn [run] in E.
  - injection E as <- <- _. split; [exact Hg|]. intros id g L. exists g. split; [exact L|]. exact (grown_left _ _ _ (Hg id g L)).
  - destruct (step c (o, fs)) as [((o1, fs1), r)|] eqn:E1; cbn [bind fst snd] in E; [|discriminate].
    destruct (run bs (o1, fs1)) as [((o2, fs2), rs2)|] eqn:E2; cbn [bind fst snd] in E; [|discriminate]. injection E as -> -> _.
    destruct (step_grows cs o fs c o1 fs1 r R0 Hg E1) as (G1 & H1).
    destruct (IH (cs ++ [c])%list o1 fs1 o' fs' rs2 (reach_step _ _ _ _ _ _ _ _ R0 E1) G1 E2) as (G2 & H2). split; [exact G2|].
    intros id g L. destruct (H1 id g L) as (g1 & L1 & Q1). destruct (H2 id g1 L1) as (g2 & L2 & Q2). exists g2. split; [exact L2|]. exact (grown_trans _ _ _ _ Q1 Q2).
Qed.
End Calls.

(** ** objects built by the constructor *)
(** yield stress and hardening of the plastic phases (type 1) *)
Definition hard_args (mt : list Z) (ps : list R) : Prop :=
  exists t0 t1 r, mt = t0 :: t1 :: r /\ (t0 = 1%Z -> 0 <= lget ps 2 /\ 0 <= lget ps 3) /\ (t1 = 1%Z -> 0 <= lget ps 12 /\ 0 <= lget ps 13).
Definition yield_args (mt : list Z) (ps : list R) : Prop :=
  exists t0 t1 r, mt = t0 :: t1 :: r /\ (t0 = 1%Z -> 0 < lget ps 2 /\ 0 <= lget ps 3) /\ (t1 = 1%Z -> 0 < lget ps 12 /\ 0 <= lget ps 13).
Lemma yield_hard mt ps : yield_args mt ps -> hard_args mt ps.
Proof. intros (t0 & t1 & r & E & H0 & H1). exists t0, t1, r. split; [exact E|]. split; intros Q; [destruct (H0 Q)|destruct (H1 Q)]; lra. Qed.
Lemma plast_type t ps i : m_plast (mat_i t ps i : material R) = Some true -> t = 1%Z.
Proof. unfold mat_i, Build.the_mat, flags. cbn [m_plast]. destruct t as [|[p|p|]|p]; cbn; try discriminate; [destruct p; discriminate|reflexivity]. Qed.
Lemma built_mat nx ny nz mtype mp mt ps tol V ex ey ez m : body3 V -> env_of 3 nx ny nz mtype mp mt ps tol V -> is_cell3 V ex ey ez -> cell_mat V ex ey ez m -> m_plast m = Some true ->
  forall t0 t1 r, mt = t0 :: t1 :: r -> (t0 = 1%Z /\ m_Sy m = lget ps 2 /\ m_Ka m = lget ps 3) \/ (t1 = 1%Z /\ m_Sy m = lget ps 12 /\ m_Ka m = lget ps 13).
Proof.
  intros (S & G & D) E Hc Hm P t0 t1 r Em. destruct (cell_m V ex ey ez m S D Hc Hm) as (Q & _).
  destruct (mat_at_cases _ _ _ _ _ _ _ _ _ _ (ix3 V (ex, ey, ez)) E) as (s0 & s1 & r' & Em' & H). rewrite Em in Em'. injection Em' as <- <- <-. rewrite Q in H.
  destruct H as [-> | ->]; apply plast_type in P; [left|right]; (split; [exact P|split; reflexivity]).
Qed.
Lemma built_hardens nx ny nz mtype mp mt ps tol V : body3 V -> env_of 3 nx ny nz mtype mp mt ps tol V -> hard_args mt ps -> hardens V.
Proof.
  intros B E (t0 & t1 & r & Em & H0 & H1) ex ey ez m Hc Hm P.
  destruct (built_mat _ _ _ _ _ _ _ _ _ _ _ _ _ B E Hc Hm P _ _ _ Em) as [(T & -> & ->)|(T & -> & ->)]; [destruct (H0 T)|destruct (H1 T)]; auto.
Qed.

Section Built.
Variables (fuel : nat) (orc : Z -> peek) (j : junk R) (nx ny nz mtype : Z) (mp : list R) (mt : list Z) (ps : list R) (o0 : obj R).
Hypotheses (A : valid_args 3 nx ny nz mtype mp mt ps) (BA : body_args 3 mp ps) (J : total_junk j) (C : construct fuel orc j 3 [nx; ny; nz] mtype mp mt ps = Ok o0).
Lemma built_object : is_object o0 /\ o_gps o0 = [] /\ exists tol, env_of 3 nx ny nz mtype mp mt ps tol (o_env o0) /\ body3 (o_env o0) /\ adm (o_env o0).
Proof.
  pose proof (construct_ok fuel orc j 3 nx ny nz mtype mp mt ps A J) as H. rewrite C in H. destruct H as ((K & Z0) & (tol & _ & E) & _).
  split; [exists 3%Z, nx, ny, nz, mtype, mp, mt, ps, fuel, orc, j; auto|]. split; [exact Z0|]. exists tol. split; [exact E|]. pose proof (ok_sane _ K) as S.
  split; [exact (built_body3 _ _ _ _ _ _ _ _ _ S E A BA)|exact (built_adm _ _ _ _ _ _ _ _ _ _ E BA)].
Qed.
Lemma built_grows cs o fs : hard_args mt ps -> reaches o0 cs o fs -> grows (o_env o0) o.
Proof.
  intros HA R0. destruct built_object as (O & Z0 & tol & E & B & AD). pose proof (built_hardens _ _ _ _ _ _ _ _ _ B E HA) as HD. pose proof R0 as (fs0 & rs & Er).
  apply (run_grows o0 O B AD HD cs [] o0 fs0 o fs rs); [exists fs0, []; reflexivity| |exact Er]. intros id g L. rewrite Z0 in L. discriminate.
Qed.
(** C93 *)
Theorem hardening_grows cs1 o1 fs1 cs2 o2 fs2 rs id g1 : hard_args mt ps -> reaches o0 cs1 o1 fs1 -> run cs2 (o1, fs1) = Ok (o2, fs2, rs) -> lookup id (o_gps o1) = Some g1 ->
  exists g2, lookup id (o_gps o2) = Some g2 /\ forall ex ey ez p m, is_cell3 (o_env o0) ex ey ez -> (0 <= p < 8)%Z -> cell_mat (o_env o0) ex ey ez m -> m_plast m = Some true ->
    exists ep1 al1 ep2 al2,
      (forall i, (0 <= i < 6)%Z -> committed (o_env o0) g1 (var3 (o_env o0) ex ey ez p i) = Some (ep1 i) /\ committed (o_env o0) g2 (var3 (o_env o0) ex ey ez p i) = Some (ep2 i)) /\
      committed (o_env o0) g1 (var3 (o_env o0) ex ey ez p 6) = Some al1 /\ committed (o_env o0) g2 (var3 (o_env o0) ex ey ez p 6) = Some al2 /\
      0 <= al1 <= al2 /\ ep1 0%Z + ep1 1%Z + ep1 2%Z = 0 /\ ep2 0%Z + ep2 1%Z + ep2 2%Z = 0.
Proof.
  intros HA R1 E2 L. destruct built_object as (O & Z0 & tol & E & B & AD). pose proof (built_hardens _ _ _ _ _ _ _ _ _ B E HA) as HD.
  destruct (run_grows o0 O B AD HD cs2 cs1 o1 fs1 o2 fs2 rs R1 (built_grows cs1 o1 fs1 HA R1) E2) as (_ & H). destruct (H id g1 L) as (g2 & L2 & Q). exists g2. split; [exact L2|].
  intros ex ey ez p m Hc Hp Hm P. destruct (Q ex ey ez p m Hc Hp Hm P) as (ep & al & ep' & al' & (H1 & H2) & (H3 & H4) & Ha & T1 & T2).
  exists ep, al, ep', al'. split; [intros i Hi; split; auto|]. split; [exact H2|]. split; [exact H4|]. split; [exact Ha|]. split; [exact T1|exact T2].
Qed.
(** the committed variables as an array *)
Definition is_history (g : gp R) (vo : arr R) : Prop := full vo (nvars (o_env o0)) /\ forall i, (0 <= i < nvars (o_env o0))%Z -> aget vo i = committed (o_env o0) g i.
Lemma history_ex cs o fs id g : reaches o0 cs o fs -> lookup id (o_gps o) = Some g -> exists vo, is_history g vo.
Proof.
  intros R0 L. destruct built_object as (O & _ & tol & E & B & AD). destruct (reach_inv o0 cs o fs O R0) as (K & (Ev & _) & _). destruct (lookup_ok o id g K L) as (Gg & _). rewrite Ev in Gg.
  exists (fun_arr (nvars (o_env o0)) (fun i => match committed (o_env o0) g i with Some x => x | None => 0 end)).
  pose proof (fun_arr_rep (nvars (o_env o0)) (fun i => match committed (o_env o0) g i with Some x => x | None => 0 end)) as Rp.
  split; [exact (rep_full _ _ _ Rp)|]. intros i Hi. rewrite (proj2 Rp i Hi). unfold committed. destruct (g_n g) as [n|] eqn:En; [|reflexivity].
  pose proof (go_vars _ g Gg) as Gv. rewrite En in Gv. destruct (g_k g) as [k|]; [|contradiction]. destruct (proj2 (proj1 Gv) i Hi) as (x & ->). reflexivity.
Qed.
Lemma history_vars g vo : is_history g vo -> vars_ok (o_env o0) vo (fun_arr (ncells (o_env o0) * 56) (fun _ => 0)).
Proof.
  intros (F & _). split; [|apply fun_arr_rep]. intros e q i He Hq Hi _. apply (proj2 F). rewrite nvars_eq. lia.
Qed.
Lemma history_al cs o fs id g vo ex ey ez p m : hard_args mt ps -> reaches o0 cs o fs -> lookup id (o_gps o) = Some g -> is_history g vo -> is_cell3 (o_env o0) ex ey ez -> (0 <= p < 8)%Z ->
  cell_mat (o_env o0) ex ey ez m -> m_plast m = Some true -> 0 <= val vo (var3 (o_env o0) ex ey ez p 6).
Proof.
  intros HA R0 L (_ & Hv) Hc Hp Hm P. destruct built_object as (O & _ & tol & E & B & AD).
  destruct (built_grows cs o fs HA R0 id g L ex ey ez p m Hc Hp Hm P) as (ep & al & _ & _ & (_ & H2) & _ & (A0 & _) & _).
  unfold val. rewrite Hv by (apply var3_in; try assumption; lia). rewrite H2. exact A0.
Qed.
(** the yield stresses asked for by C78-C92 *)
Theorem history_yield cs o fs id g vo : reaches o0 cs o fs -> lookup id (o_gps o) = Some g -> is_history g vo ->
  (hard_args mt ps -> yield_ok (o_env o0) vo) /\ (yield_args mt ps -> yield_pos (o_env o0) vo).
Proof.
  intros R0 L Hv. destruct built_object as (O & _ & tol & E & B & AD). split; intros HA ex ey ez p m Hc Hp Hm P.
  - pose proof (history_al cs o fs id g vo ex ey ez p m HA R0 L Hv Hc Hp Hm P) as H. destruct (built_hardens _ _ _ _ _ _ _ _ _ B E HA ex ey ez m Hc Hm P) as (Hk & Hs).
    assert (0 <= m_Ka m * val vo (var3 (o_env o0) ex ey ez p 6)) by (now apply Rmult_le_pos). lra.
  - pose proof (history_al cs o fs id g vo ex ey ez p m (yield_hard _ _ HA) R0 L Hv Hc Hp Hm P) as H. destruct (built_hardens _ _ _ _ _ _ _ _ _ B E (yield_hard _ _ HA) ex ey ez m Hc Hm P) as (Hk & _).
    assert (0 <= m_Ka m * val vo (var3 (o_env o0) ex ey ez p 6)) by (now apply Rmult_le_pos).
    destruct HA as (t0 & t1 & r & Em & Q0 & Q1). destruct (built_mat _ _ _ _ _ _ _ _ _ _ _ _ _ B E Hc Hm P _ _ _ Em) as [(T & -> & _)|(T & -> & _)]; [destruct (Q0 T)|destruct (Q1 T)]; lra.
Qed.
End Built.

(** a state depends on the values of the history only *)
Lemma state_vold V e u vold vold' b' n s : body3 V -> vars_ok V vold' (fun_arr (ncells V * 56) (fun _ => 0)) -> (forall i, (0 <= i < nvars V)%Z -> aget vold' i = aget vold i) ->
  state3 V e u vold b' n s -> exists b2, state3 V e u vold' b2 n s.
Proof.
  intros (S & G & D) W' Eq (vnew & b & nl & vn & vn' & F & W & Lb & B & E & Es). pose proof (full_rep _ _ F) as U. pose proof (vars_old _ _ _ W) as O.
  assert (O' : old_ok V (val vold) vold').
  { intros c g i Hc Hg Hi P. rewrite Eq; [now apply O|]. rewrite nvars_eq. unfold intvar_ix. lia. }
  destruct (residual3 V (val u) (val vold) u vold vnew b S D U O (proj2 W) Lb) as (b1 & nl1 & v1 & n1 & E1 & R1 & N1). rewrite E in E1. injection E1 as <- <- <- <-.
  destruct (residual3 V (val u) (val vold) u vold' vnew b S D U O' (proj2 W) Lb) as (b2 & nl2 & v2 & n2 & E2 & _ & N2).
  pose proof U as U3. rewrite (ndofs_eq3 V D) in U3. rewrite (ave_stress3_eq V (val u) (val vold) S u vold vnew D U3 O) in Es.
  exists b2, vnew, b, nl2, v2, vn'. split; [exact F|]. split; [split; [exact (proj1 W')|exact (proj2 W)]|]. split; [exact Lb|]. split; [exact B|]. split; [rewrite N1, <- N2; exact E2|].
  rewrite (ave_stress3_eq V (val u) (val vold) S u vold' vnew D U3 O'). exact Es.
Qed.

(** C94 *)
Theorem stress_accuracy fuel orc (j : junk R) nx ny nz mtype mp mt ps o0 cs o fs id g : valid_args 3 nx ny nz mtype mp mt ps -> body_args 3 mp ps -> yield_args mt ps -> total_junk j ->
  construct fuel orc j 3 [nx; ny; nz] mtype mp mt ps = Ok o0 -> reaches o0 cs o fs -> lookup id (o_gps o) = Some g ->
  let V := o_env o0 in let e := map (oval (g_strain g)) (zrange 0 6) in
  exists vo s K d, full vo (nvars V) /\ (forall i, (0 <= i < nvars V)%Z -> aget vo i = committed V g i) /\ 0 <= K /\ 0 < d /\ (exists u b', state3 V e u vo b' 0 s) /\
  forall fuel1 orc1 o' fs' r g' er, step (Homogenize fuel1 orc1) (o, fs) = Ok (o', fs', r) -> g_n g <> None \/ ~ below o g -> lookup id (o_gps o') = Some g' ->
    aget (g_err g') 0 = Some er -> er < 1 / 100000 -> er <= d ->
    forall v, (0 <= v < 6)%Z -> exists x, aget (g_stress g') v = Some x /\ (x - lget s v) * (x - lget s v) <= K * er.
Proof.
  intros A BA YA J C R0 L V e. destruct (built_object fuel orc j nx ny nz mtype mp mt ps o0 A BA J C) as (O & _ & tol & E & B & AD). fold V in E, B, AD.
  destruct (history_ex fuel orc j nx ny nz mtype mp mt ps o0 A BA J C cs o fs id g R0 L) as (vo & Hv). pose proof (history_vars o0 g vo Hv) as W.
  pose proof (proj2 (history_yield fuel orc j nx ny nz mtype mp mt ps o0 A BA J C cs o fs id g vo R0 L Hv) YA) as Y. fold V in W, Y. pose proof Hv as (Fv & Gv). fold V in Fv, Gv.
  destruct (convergence3 V vo _ e B AD W Y) as (s & K & d & K0 & d0 & St & H). exists vo, s, K, d. do 5 (split; [assumption|]).
  intros fuel1 orc1 o' fs' r g' er Es N L' Ge H1 H2 v Hv6. destruct (reach_inv o0 cs o fs O R0) as (_ & (Ev & _) & _). fold V in Ev.
  destruct (point_solved o0 cs o fs fuel1 orc1 o' fs' r id g O R0 Es L N) as (g1 & w & jj & L1 & Wf & vo2 & w1 & nl & it & er2 & s2 & Vo2 & F2 & Re & Gs & _ & Ge2 & _).
  rewrite L' in L1. injection L1 as <-. rewrite Ge in Ge2. injection Ge2 as <-. rewrite Ev in *. assert (D6 : nvoi V = 6%Z) by (destruct B as (_ & _ & D); unfold nvoi; now rewrite D). rewrite D6 in *. fold e in Re.
  assert (Wv : wok V (set_vold w vo2)).
  { destruct Wf as (Wk & _). destruct Wk. constructor; try assumption. intros c q i Hc Hq Hi _. cbn [set_vold w_vold]. apply (proj2 F2). rewrite nvars_eq. unfold intvar_ix. lia. }
  destruct (respond_state3 V fuel1 (orc1 jj 0%Z) e (set_vold w vo2) w1 nl it er s2 B Wv Re H1) as (b' & S3). cbn [set_vold w_vold] in S3.
  destruct (state_vold V e (w_u w1) vo2 vo b' er s2 B W) as (b2 & S4); [intros i Hi; rewrite Gv, Vo2 by exact Hi; reflexivity|exact S3|].
  exists (lget s2 v). split; [now apply Gs|]. now apply (proj1 (H (w_u w1) b2 er s2 S4 H2)).
Qed.

(** ** a cell that flows and is committed *)
Lemma cell_body Ka Sy : body_args 3 cmp (cps Ka Sy).
Proof.
  constructor; unfold cmp, cps, lget; change (Z.to_nat 0) with 0%nat; change (Z.to_nat 1) with 1%nat; change (Z.to_nat 2) with 2%nat; change (Z.to_nat 10) with 10%nat; change (Z.to_nat 11) with 11%nat;
    cbn [nth]; intros; try split; lra.
Qed.
Lemma cell_yield : yield_args [1%Z; 1%Z] (cps 1 1).
Proof. exists 1%Z, 1%Z, []. split; [reflexivity|]. unfold cps, lget.
  change (Z.to_nat 2) with 2%nat; change (Z.to_nat 3) with 3%nat; change (Z.to_nat 12) with 12%nat; change (Z.to_nat 13) with 13%nat; cbn [nth]. split; intros _; lra. Qed.
Lemma flow_al : 0 < ps_alpha (plastic_step (mat1 1 1) (shear 2) z6 0).
Proof.
  assert (Hmu : 0 < m_mu (mat1 1 1)) by (rewrite mat1_mu; lra). destruct (step_forms (mat1 1 1) (shear 2) z6 0 Hmu) as (N & _ & ->).
  assert (F : 0 < ftrial (mat1 1 1) (shear 2) z6 0) by (unfold z6; rewrite sgap_eq; apply sgap_big; lra).
  rewrite (proj2 N F). unfold dlam. rewrite mat1_mu. assert (0 < sqrt (2 / 3)) by (apply sqrt_lt_R0; lra).
  match goal with |- 0 < 0 + _ * ?q => assert (0 < q) by (apply Rdiv_lt_0_compat; [exact F|lra]) end.
  rewrite Rplus_0_l. now apply Rmult_lt_0_compat.
Qed.
Lemma flow_committed : exists (j : junk R) o0 o1 fs1 o2 fs2 r2 o3 fs3 r3 g1 g2 g3 al, valid_args 3 2 2 2 0 cmp [1%Z; 1%Z] (cps 1 1) /\ body_args 3 cmp (cps 1 1) /\ hard_args [1%Z; 1%Z] (cps 1 1) /\
  yield_args [1%Z; 1%Z] (cps 1 1) /\ total_junk j /\ construct fuel40 (fun _ => counting) j 3 [2%Z; 2%Z; 2%Z] 0 cmp [1%Z; 1%Z] (cps 1 1) = Ok o0 /\
  reaches o0 load o1 fs1 /\ step hom (o1, fs1) = Ok (o2, fs2, r2) /\ step UpdateVars (o2, fs2) = Ok (o3, fs3, r3) /\
  lookup 1 (o_gps o1) = Some g1 /\ lookup 1 (o_gps o2) = Some g2 /\ lookup 1 (o_gps o3) = Some g3 /\ ~ below o1 g1 /\ aget (g_err g2) 0 = Some 0 /\
  is_cell3 (o_env o0) 0 0 0 /\ cell_mat (o_env o0) 0 0 0 (mat1 1 1) /\ m_plast (mat1 1 1) = Some true /\
  committed (o_env o0) g1 (var3 (o_env o0) 0 0 0 0 6) = Some 0 /\ committed (o_env o0) g3 (var3 (o_env o0) 0 0 0 0 6) = Some al /\ 0 < al.
Proof.
  destruct (cell_object 1 1 0 (flat_junk 0) (flat_total 0) eq_refl) as (o0 & Ec & O & C & _).
  destruct (harmless_runs o0 no_files (load ++ [hom; UpdateVars]) O) as (o3 & fs3 & R3).
  { unfold load. repeat constructor; cbn; lia. }
  change (load ++ [hom; UpdateVars]) with ((load ++ [hom]) ++ [UpdateVars]) in R3. apply reach_last in R3. destruct R3 as (o2 & fs2 & r3 & R2 & S3).
  pose proof R2 as R2'. apply reach_last in R2. destruct R2 as (o1 & fs1 & r2 & R1 & S2).
  destruct (lookup_set o0 load o1 fs1 1%Z O R1 ltac:(left; reflexivity)) as (g1 & L1). pose proof (fresh_after_set o0 o1 fs1 g1 O R1 L1) as N1.
  destruct (cell_hom 1 1 o0 load o1 fs1 o2 fs2 r2 1%Z (shear 2) g1 z6 0 O C R1 S2 ls_load L1 (fresh_vars _ _ N1)) as (g2 & L2 & V2 & _ & Y2 & _).
  rewrite e6_shear in Y2. assert (Fl : ps_nl (plastic_step (mat1 1 1) (shear 2) z6 0) = true) by (apply shear_plastic; [apply sgap_big|]; lra).
  destruct (Y2 Fl) as (N2 & k & K2 & P2).
  destruct (commit_pair o0 _ o2 fs2 o3 fs3 r3 1%Z g2 O R2' S3 L2) as (g3 & L3 & _ & H3). destruct (H3 N2) as (k3 & K3 & H4). assert (k3 = k) by congruence. subst k3.
  destruct (reach_env o0 _ o1 fs1 O R1) as (E1 & _). destruct (reach_env o0 _ o2 fs2 O R2') as (E2 & _). rewrite E2 in H4.
  assert (Nb : ~ below o1 g1) by (apply not_below; rewrite E1; exact (ce_tol _ _ _ _ C)).
  pose proof (ce_body _ _ _ _ C) as B. pose proof B as (S & G & D).
  assert (Hc : is_cell3 (o_env o0) 0 0 0) by (apply in_els3; rewrite (ce_els _ _ _ _ C); now left).
  assert (Hm : cell_mat (o_env o0) 0 0 0 (mat1 1 1)).
  { rewrite <- (ce_mat _ _ _ _ C). change 0%Z with (ix3 (o_env o0) (0, 0, 0)%Z) at 4. now apply cell_mat_ex. }
  assert (I : var3 (o_env o0) 0 0 0 0 6 = 6%Z) by reflexivity.
  assert (Er : aget (g_err g2) 0 = Some 0).
  { destruct (point_solved o0 load o1 fs1 fuel40 cnt2 o2 fs2 r2 1%Z g1 O R1 S2 L1 (or_intror Nb)) as (g2' & w & jj & L2' & Wf & vo & w1 & nl & it & er & s & Vo & Fo & Re & _ & _ & Ge & _).
    rewrite L2 in L2'. injection L2' as <-. rewrite E1 in *. rewrite Ge. f_equal.
    assert (Wv : wok (o_env o0) (set_vold w vo)).
    { destruct Wf as (Wk & _). destruct Wk. constructor; try assumption. intros c q i Hc' Hq Hi _. cbn [set_vold w_vold]. apply (proj2 Fo). rewrite nvars_eq. unfold intvar_ix. lia. }
    assert (U : uniform vo z6 0).
    { rewrite (ce_nv _ _ _ _ C) in Fo, Vo. split; [exact Fo|]. intros q Hq. destruct (fresh_vars (o_env o0) g1 N1 q Hq) as (A1 & A2). split; [intros i Hi|]; rewrite Vo by lia; auto. }
    destruct (cell_respond 1 1 0 (o_env o0) fuel40 (cnt2 jj 0%Z) (map (oval (g_strain g1)) (zrange 0 (nvoi (o_env o0)))) (set_vold w vo) z6 0 C Wv U) as (w2 & s2 & Q2 & _); [pose proof fuel40_ok; lia|].
    rewrite Re in Q2. now injection Q2 as _ _ _ -> _. }
  exists (flat_junk 0), o0, o1, fs1, o2, fs2, r2, o3, fs3, r3, g1, g2, g3, (ps_alpha (plastic_step (mat1 1 1) (shear 2) z6 0)).
  split; [apply cargs|]. split; [apply cell_body|]. split; [exact (yield_hard _ _ cell_yield)|]. split; [exact cell_yield|]. split; [apply flat_total|]. split; [exact Ec|].
  do 11 (split; [first [assumption|reflexivity]|]). rewrite I. split; [now apply committed_zero|]. split; [|exact flow_al].
  rewrite H4 by (rewrite (ce_nv _ _ _ _ C); lia). exact (proj2 (P2 0%Z ltac:(lia))).
Qed.
