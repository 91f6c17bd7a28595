(** What the program text of calc_ave_strain, calc_ave_stress and calc_fields computes in exact arithmetic: two dimensions. *)
From Coq Require Import String Reals Lra FMapPositive.
From Verif Require Import Base Scalar MicroModel Clite CliteRules EllAst AsmAst Sym Grid EllModel AssemblyModel AsmLit AsmLit2 AsmLit9 AsmLit14 AsmLit17 AsmLit18 AsmLit22 AsmLit28 AsmLit21
  FemGen FemAve FemPd AsmEx AsmPure AsmSpec AsmProps AsmPoint AsmRun AsmCases NewtonBase CgProps OutFields.
Local Open Scope string_scope.
Local Open Scope R_scope.

Section Then.
Variables (V : env R) (A : place) (e : list R) (ae vold vnew u : arr R) (h : Z -> option (@obj R)) (k be bs : Z) (as_ : arr R).
Hypothesis B : body2 V.
Hypothesis F : full u (ndofs V).
Hypothesis ND : NoDup (body_addrs A ++ [be; bs])%list.
Hypothesis FK : Forall (fun a => (a < k)%Z) (body_addrs A ++ [be; bs])%list.
Hypothesis BD : body V A vold vnew u h.
Hypothesis HE : h be = Some (OD ae).
Hypothesis LE : alen ae = 6%Z.
Hypothesis GE : forall i, (0 <= i < 3)%Z -> aget ae i = Some (lget e i).
Hypothesis HS : h bs = Some (OD as_).
Hypothesis LS : alen as_ = 6%Z.

Lemma after_displ2 : exists st u', calls asm_prog "set_displ" [VP (a_this A) 0; VP be 0] h k (Ok (st, Nrm)) /\
    set_displ V e u = Ok u' /\ body V A vold vnew u' (mem st) /\ mem st bs = Some (OD as_) /\
    frame h (mem st) k [a_u A] /\ (k <= nxt st)%Z.
Proof.
  destruct (displ_addrs _ _ _ _ ND FK) as (N1 & F1 & N2 & F2 & N3 & F3 & Q1 & Q2 & Q3 & Q4 & Q5).
  assert (BD' := BD). destruct BD' as (fs & l2 & B0 & B1 & _ & _ & _ & _ & _ & B7).
  destruct (displ2_spec V e u B (proj1 F)) as (u' & E & _).
  destruct (set_displ_text V A fs e u u' ae h k be (or_intror (proj2 (proj2 B))) dec01_ofZ N1 F1 B0 B1 B7 HE LE) as (st & C & M & FR & KN).
  { rewrite (proj2 (proj2 B)). exact GE. }
  { exact E. }
  exists st, u'. split; [exact C|]. split; [exact E|]. split; [eapply body_new_u; eauto|]. split; [|auto].
  rewrite FR; [exact HS|exact Q4|]. intros [Q|[]]. congruence.
Qed.

Theorem text_mean_strain2 :
  exists st1 st2 as', calls asm_prog "set_displ" [VP (a_this A) 0; VP be 0] h k (Ok (st1, Nrm)) /\
    calls asm_prog "calc_ave_strain" [VP (a_this A) 0; VP bs 0] (mem st1) (nxt st1) (Ok (st2, Nrm)) /\
    mem st2 bs = Some (OD as') /\ (forall v, (0 <= v < 3)%Z -> aget as' v = Some (lget e v)) /\
    (forall c, (c < k)%Z -> c <> a_u A -> c <> bs -> mem st2 c = h c).
Proof.
  destruct after_displ2 as (st1 & u' & C1 & E & BD1 & M1 & FR1 & K1).
  destruct (displ_addrs _ _ _ _ ND FK) as (N1 & F1 & N2 & F2 & N3 & F3 & Q1 & Q2 & Q3 & Q4 & Q5).
  destruct (mean_strain2 V e u u' B F E) as (s & ES & G).
  destruct (calc_ave_strain2D_text V A vold vnew u' (mem st1) (nxt st1) bs as_ s (proj2 (proj2 B)) N3 (up_k A k be bs ND FK _ K1) BD1 M1 LS ES)
    as (st2 & as' & C2 & _ & M2 & _ & G2 & FR2 & _).
  exists st1, st2, as'. split; [exact C1|]. split; [exact C2|]. split; [exact M2|]. split.
  { intros v Hv. rewrite (G2 v Hv). now rewrite (G v Hv). }
  intros c Hc X Y. refine (frame_weak h _ _ k _ _ _ K1 FR1 FR2 c Hc _). cbn [In app]. intuition congruence.
Qed.
Theorem text_uniform2 m : admissible m -> (forall c, (0 <= c < ncells V)%Z -> AsmPure.mat_at V c = m) ->
  exists st1 st2 as', calls asm_prog "set_displ" [VP (a_this A) 0; VP be 0] h k (Ok (st1, Nrm)) /\
    calls asm_prog "calc_ave_stress" [VP (a_this A) 0; VP bs 0] (mem st1) (nxt st1) (Ok (st2, Nrm)) /\
    mem st2 bs = Some (OD as') /\
    (let t := m_lambda m * (lget e 0 + lget e 1) in
     aget as' 0 = Some (t + 2 * m_mu m * lget e 0) /\ aget as' 1 = Some (t + 2 * m_mu m * lget e 1) /\ aget as' 2 = Some (m_mu m * lget e 2)) /\
    (forall c, (c < k)%Z -> c <> a_u A -> c <> bs -> mem st2 c = h c).
Proof.
  intros Ad HM. destruct after_displ2 as (st1 & u' & C1 & E & BD1 & M1 & FR1 & K1).
  destruct (displ_addrs _ _ _ _ ND FK) as (N1 & F1 & N2 & F2 & N3 & F3 & Q1 & Q2 & Q3 & Q4 & Q5).
  destruct (uniform2 V m e u u' vold vnew B F Ad HM E) as (s & ES & G0 & G1 & G2).
  destruct (calc_ave_stress2D_text V A vold vnew u' (mem st1) (nxt st1) bs as_ s vnew (proj2 (proj2 B)) N3 (up_k A k be bs ND FK _ K1) BD1 M1 LS ES)
    as (st2 & as' & C2 & _ & _ & M2 & _ & VS & FR2 & _).
  exists st1, st2, as'. split; [exact C1|]. split; [exact C2|]. split; [exact M2|]. split.
  { cbv zeta. rewrite !VS by lia. now rewrite G0, G1, G2. }
  intros c Hc X Y. refine (frame_weak h _ _ k _ _ _ K1 FR1 FR2 c Hc _). cbn [In app]. intuition congruence.
Qed.
End Then.

Theorem text_mean_stress2 V A vold vnew u h k bs as_ : body2 V -> full u (ndofs V) ->
  NoDup (body_addrs A ++ [bs])%list -> Forall (fun a => (a < k)%Z) (body_addrs A ++ [bs])%list ->
  body V A vold vnew u h -> h bs = Some (OD as_) -> alen as_ = 6%Z ->
  exists st as' sig, calls asm_prog "calc_ave_stress" [VP (a_this A) 0; VP bs 0] h k (Ok (st, Nrm)) /\
    stress_field2 V u sig /\ mem st bs = Some (OD as') /\
    (forall v, (0 <= v < 3)%Z -> aget as' v = Some (quad_body2 V (fun ex ey g => sig ex ey g v) / area2 V)) /\
    (forall c, (c < k)%Z -> c <> bs -> mem st c = h c).
Proof.
  intros B F ND FK BD HS LS. destruct (mean_stress2 V u vold vnew B F) as (s & sig & E & SF & G).
  destruct (calc_ave_stress2D_text V A vold vnew u h k bs as_ s vnew (proj2 (proj2 B)) ND FK BD HS LS E)
    as (st2 & as' & C2 & _ & _ & M2 & _ & VS & FR2 & _).
  exists st2, as', sig. split; [exact C2|]. split; [exact SF|]. split; [exact M2|]. split.
  { intros v Hv. rewrite (VS v Hv). now rewrite (G v Hv). }
  intros c Hc X. apply FR2; [exact Hc|]. cbn [In]. intuition congruence.
Qed.
Theorem text_fields2 V A vold vnew u es et h k : body2 V -> full u (ndofs V) ->
  alen es = (ncells V * 3)%Z -> alen et = (ncells V * 3)%Z ->
  NoDup (body_addrs A ++ [a_en A; a_es A])%list -> Forall (fun a => (a < k)%Z) (body_addrs A ++ [a_en A; a_es A])%list ->
  body V A vold vnew u h -> h (a_en A) = Some (OD es) -> h (a_es A) = Some (OD et) ->
  exists st es' et' eps sig, calls asm_prog "calc_fields" [VP (a_this A) 0] h k (Ok (st, Nrm)) /\
    mem st (a_en A) = Some (OD es') /\ mem st (a_es A) = Some (OD et') /\ strain_field2 V u eps /\ stress_field2 V u sig /\
    (forall ex ey v, is_cell2 V ex ey -> (0 <= v < 3)%Z ->
       aget es' ((ey * (v_nx V - 1) + ex) * 3 + v) = Some (rsum (zrange 0 4) (fun g => eps ex ey g v) / 4) /\
       aget et' ((ey * (v_nx V - 1) + ex) * 3 + v) = Some (rsum (zrange 0 4) (fun g => sig ex ey g v) / 4)) /\
    (forall c, (c < k)%Z -> c <> a_en A -> c <> a_es A -> mem st c = h c).
Proof.
  intros B F L1 L2 ND FK BD HN HS. destruct (cell_means2 V u vold vnew es et B F L1 L2) as (es' & et' & eps & sig & E & SF & TF & _ & _ & G).
  destruct (calc_fields2D_text V A vold vnew u es et h k es' et' vnew (proj2 (proj2 B)) ND FK BD HN HS E) as (st & C & _ & _ & M1 & M2 & FR & _).
  exists st, es', et', eps, sig. repeat (split; [assumption|]).
  intros c Hc X Y. apply FR; [exact Hc|]. cbn [In]. intuition congruence.
Qed.

Definition solid2 : env R := AsmEx.box 2 4 5 1 1 2 1 stiff stiff.
Definition out_ok2 (V : env R) (u vold vnew et es : arr R) : Prop :=
  body2 V /\ full u (ndofs V) /\ vl u 5 <> 0 /\ is_node2 V 1 2 /\ ~ on_edge2 V 1 2 /\
  alen es = (ncells V * 3)%Z /\ alen et = (ncells V * 3)%Z /\ alen (arr6 pull) = 6%Z /\
  (forall i, (0 <= i < 3)%Z -> aget (arr6 pull) i = Some (lget pull i)) /\ lget pull 2 <> 0 /\
  let h := home_out V vold vnew u et es (OD (arr6 pull)) (OD (blank 6)) in
  body V home vold vnew u h /\ h 11%Z = Some (OD (arr6 pull)) /\ h 12%Z = Some (OD (blank 6)) /\ h (a_es home) = Some (OD et) /\ h (a_en home) = Some (OD es) /\
  NoDup (body_addrs home ++ [11; 12]%Z)%list /\ Forall (fun a => (a < 14)%Z) (body_addrs home ++ [11; 12]%Z)%list /\
  NoDup (body_addrs home ++ [12]%Z)%list /\ Forall (fun a => (a < 14)%Z) (body_addrs home ++ [12]%Z)%list /\
  NoDup (body_addrs home ++ [a_en home; a_es home])%list /\ Forall (fun a => (a < 14)%Z) (body_addrs home ++ [a_en home; a_es home])%list.
Lemma out_any2 V : body2 V -> (5 < ndofs V)%Z -> is_node2 V 1 2 -> ~ on_edge2 V 1 2 -> exists u vold vnew et es, out_ok2 V u vold vnew et es.
Proof.
  intros B D N1 N2. pose proof (fun_arr_rep (ndofs V) (fun i => IZR i)) as U.
  set (u := fun_arr (ndofs V) (fun i => IZR i)) in *.
  exists u, (blank 0), (blank 0), (blank (ncells V * 3)), (blank (ncells V * 3)). unfold out_ok2.
  split; [exact B|]. split; [now apply rep_full in U|]. split.
  { rewrite (rep_val _ _ _ 5%Z U) by lia. lra. }
  do 2 (split; [assumption|]). do 2 (split; [reflexivity|]). destruct (arr6_vec pull) as (LE & GE). split; [exact LE|]. split; [intros i Hi; apply GE; cbn; lia|].
  split; [change (3 <> 0); lra|].
  destruct (home_out_case V (blank 0) (blank 0) u (blank (ncells V * 3)) (blank (ncells V * 3)) (OD (arr6 pull)) (OD (blank 6)))
    as (H1 & H2 & H3 & H4 & H5 & H6 & H7 & H8 & H9 & H10 & H11 & _). cbv zeta. repeat (split; [assumption|]). assumption.
Qed.
Lemma out_case2 : AsmPure.mat_at blend2 0 <> AsmPure.mat_at blend2 1 /\ exists u vold vnew et es, out_ok2 blend2 u vold vnew et es.
Proof.
  split; [apply composite2|]. apply out_any2; [exact blend2_body|reflexivity|unfold is_node2; cbn; lia|unfold on_edge2; cbn; lia].
Qed.
Lemma out_solid2 : admissible stiff /\ (forall c, (0 <= c < ncells solid2)%Z -> AsmPure.mat_at solid2 c = stiff) /\ exists u vold vnew et es, out_ok2 solid2 u vold vnew et es.
Proof.
  split; [exact stiff_adm|].
  split. { intros c Hc. unfold solid2 in *. rewrite (AsmEx.box_mat 2 4 5 1 1 2 1 stiff stiff) by exact Hc. now destruct (_ =? _)%Z. }
  apply out_any2; [|reflexivity|unfold is_node2; cbn; lia|unfold on_edge2; cbn; lia].
  split; [|split; [|reflexivity]]; [exact (AsmEx.box_sane 2 4 5 1 1 2 1 stiff stiff gb2 false false eq_refl eq_refl)|apply (AsmEx.box_geom 2 4 5 1 1 2 1 stiff stiff gb2); lra].
Qed.
