(** What the program text of set_displ, calc_ave_strain, calc_ave_stress and calc_fields computes in exact arithmetic. *)
From Coq Require Import String Reals Lra FMapPositive.
From Verif Require Import Base Scalar MicroModel Clite CliteRules EllAst AsmAst Sym Grid EllModel AssemblyModel AsmLit AsmLit2 AsmLit9 AsmLit14 AsmLit17 AsmLit18 AsmLit19 AsmLit20
  FemGen FemAve AsmEx AsmPure AsmSpec AsmProps AsmPoint AsmRun AsmCases NewtonBase CgProps OutFields.
Local Open Scope string_scope.
Local Open Scope R_scope.

Lemma body_new_u {T} `{Ops T} (V : env T) A vo vn u u' h h' k : NoDup (body_addrs A) -> Forall (fun a => (a < k)%Z) (body_addrs A) ->
  frame h h' k [a_u A] -> h' (a_u A) = Some (OD u') -> body V A vo vn u h -> body V A vo vn u' h'.
Proof.
  intros ND FK FR E (fs & l2 & B0 & B1 & B2 & B3 & B4 & B5 & B6 & B7). exists fs, l2. unfold body_addrs in *.
  repeat match goal with H : NoDup (_ :: _) |- _ => apply NoDup_cons_iff in H; destruct H as (? & H) end.
  repeat match goal with H : Forall _ (_ :: _) |- _ => apply Forall_cons_iff in H; destruct H as (? & H) end.
  cbn [In] in *. rewrite !FR by (assumption || cbn [In]; tauto). auto 10.
Qed.

(** ** set_displ *)
Theorem text_displ3 V A fs e ae u h k be : body3 V -> alen u = ndofs V ->
  NoDup [a_this A; a_u A; be] -> Forall (fun a => (a < k)%Z) [a_this A; a_u A; be] ->
  h (a_this A) = Some (OS fs) -> this_in fs V A -> h (a_u A) = Some (OD u) -> h be = Some (OD ae) -> vec 6 ae e ->
  exists st u', calls asm_prog "set_displ" [VP (a_this A) 0; VP be 0] h k (Ok (st, Nrm)) /\
    mem st (a_u A) = Some (OD u') /\ alen u' = ndofs V /\ affine_bnd3 V e u' /\
    (forall i j l c, is_node3 V i j l -> ~ on_face3 V i j l -> (0 <= c < 3)%Z -> aget u' (dof3 V i j l c) = aget u (dof3 V i j l c)) /\
    (forall c, (c < k)%Z -> c <> a_u A -> mem st c = h c).
Proof.
  intros B L ND FK HT TI HU HE (LE & GE). destruct (displ3_spec V e u B L) as (u' & E & L' & AF & IN).
  destruct (set_displ_text V A fs e u u' ae h k be (or_introl (proj2 (proj2 B))) dec01_ofZ ND FK HT TI HU HE LE) as (st & C & M & FR & _).
  { rewrite (proj2 (proj2 B)). exact GE. }
  { exact E. }
  exists st, u'. split; [exact C|]. split; [exact M|]. split; [exact L'|]. split; [exact AF|]. split; [exact IN|].
  intros c Hc N. apply FR; [exact Hc|]. intros [Q|[]]. congruence.
Qed.
Theorem text_displ2 V A fs e ae u h k be : body2 V -> alen u = ndofs V ->
  NoDup [a_this A; a_u A; be] -> Forall (fun a => (a < k)%Z) [a_this A; a_u A; be] ->
  h (a_this A) = Some (OS fs) -> this_in fs V A -> h (a_u A) = Some (OD u) -> h be = Some (OD ae) -> alen ae = 6%Z ->
  (forall i, (0 <= i < 3)%Z -> aget ae i = Some (lget e i)) ->
  exists st u', calls asm_prog "set_displ" [VP (a_this A) 0; VP be 0] h k (Ok (st, Nrm)) /\
    mem st (a_u A) = Some (OD u') /\ alen u' = ndofs V /\ affine_bnd2 V e u' /\
    (forall i j c, is_node2 V i j -> ~ on_edge2 V i j -> (0 <= c < 2)%Z -> aget u' (dof2 V i j c) = aget u (dof2 V i j c)) /\
    (forall c, (c < k)%Z -> c <> a_u A -> mem st c = h c).
Proof.
  intros B L ND FK HT TI HU HE LE GE. destruct (displ2_spec V e u B L) as (u' & E & L' & AF & IN).
  destruct (set_displ_text V A fs e u u' ae h k be (or_intror (proj2 (proj2 B))) dec01_ofZ ND FK HT TI HU HE LE) as (st & C & M & FR & _).
  { rewrite (proj2 (proj2 B)). exact GE. }
  { exact E. }
  exists st, u'. split; [exact C|]. split; [exact M|]. split; [exact L'|]. split; [exact AF|]. split; [exact IN|].
  intros c Hc N. apply FR; [exact Hc|]. intros [Q|[]]. congruence.
Qed.

(** the addresses of the three objects set_displ touches *)
Lemma displ_addrs A be bs k : NoDup (body_addrs A ++ [be; bs])%list -> Forall (fun a => (a < k)%Z) (body_addrs A ++ [be; bs])%list ->
  NoDup [a_this A; a_u A; be] /\ Forall (fun a => (a < k)%Z) [a_this A; a_u A; be] /\
  NoDup (body_addrs A) /\ Forall (fun a => (a < k)%Z) (body_addrs A) /\
  NoDup (body_addrs A ++ [bs])%list /\ Forall (fun a => (a < k)%Z) (body_addrs A ++ [bs])%list /\ be <> bs /\ be <> a_u A /\ bs <> a_u A /\ (bs < k)%Z /\ (be < k)%Z.
Proof.
  intros ND FK. unfold body_addrs in *. cbn [app] in *.
  repeat match goal with H : NoDup (_ :: _) |- _ => apply NoDup_cons_iff in H; destruct H as (? & H) end.
  repeat match goal with H : Forall _ (_ :: _) |- _ => apply Forall_cons_iff in H; destruct H as (? & H) end.
  cbn [In] in *. repeat split; repeat constructor; cbn [In]; try assumption;
    clear -H H0 H1 H2 H3 H4 H5 H6; intro; repeat match goal with X : _ \/ _ |- _ => destruct X | X : False |- _ => destruct X end; subst; tauto.
Qed.
Lemma frame_weak {T} (h h1 h2 : Z -> option (@obj T)) k k1 l1 l2 : (k <= k1)%Z -> frame h h1 k l1 -> frame h1 h2 k1 l2 -> frame h h2 k (l1 ++ l2)%list.
Proof. intros L F1 F2 c Hc N. rewrite F2 by (lia || (intro; apply N, in_or_app; tauto)). apply F1; [exact Hc|]. intro; apply N, in_or_app; tauto. Qed.

Section Then.
Variables (V : env R) (A : place) (e : list R) (ae vold vnew u : arr R) (h : Z -> option (@obj R)) (k be bs : Z) (as_ : arr R).
Hypothesis B : body3 V.
Hypothesis F : full u (ndofs V).
Hypothesis ND : NoDup (body_addrs A ++ [be; bs])%list.
Hypothesis FK : Forall (fun a => (a < k)%Z) (body_addrs A ++ [be; bs])%list.
Hypothesis BD : body V A vold vnew u h.
Hypothesis HE : h be = Some (OD ae).
Hypothesis VE : vec 6 ae e.
Hypothesis HS : h bs = Some (OD as_).
Hypothesis LS : alen as_ = 6%Z.

Lemma after_displ : exists st u', calls asm_prog "set_displ" [VP (a_this A) 0; VP be 0] h k (Ok (st, Nrm)) /\
    set_displ V e u = Ok u' /\ body V A vold vnew u' (mem st) /\ mem st bs = Some (OD as_) /\
    frame h (mem st) k [a_u A] /\ (k <= nxt st)%Z.
Proof.
  destruct (displ_addrs _ _ _ _ ND FK) as (N1 & F1 & N2 & F2 & N3 & F3 & Q1 & Q2 & Q3 & Q4 & Q5).
  assert (BD' := BD). destruct BD' as (fs & l2 & B0 & B1 & _ & _ & _ & _ & _ & B7).
  destruct VE as (LE & GE). destruct (displ3_spec V e u B (proj1 F)) as (u' & E & _).
  destruct (set_displ_text V A fs e u u' ae h k be (or_introl (proj2 (proj2 B))) dec01_ofZ N1 F1 B0 B1 B7 HE LE) as (st & C & M & FR & KN).
  { rewrite (proj2 (proj2 B)). exact GE. }
  { exact E. }
  exists st, u'. split; [exact C|]. split; [exact E|]. split; [eapply body_new_u; eauto|]. split; [|auto].
  rewrite FR; [exact HS|exact Q4|]. intros [Q|[]]. congruence.
Qed.
Lemma up_k k' : (k <= k')%Z -> Forall (fun a => (a < k')%Z) (body_addrs A ++ [bs])%list.
Proof.
  intros L. destruct (displ_addrs _ _ _ _ ND FK) as (_ & _ & _ & _ & _ & F3 & _). eapply Forall_impl; [|exact F3]. intros; cbn in *; lia.
Qed.

Theorem text_mean_strain3 :
  exists st1 st2 as', calls asm_prog "set_displ" [VP (a_this A) 0; VP be 0] h k (Ok (st1, Nrm)) /\
    calls asm_prog "calc_ave_strain" [VP (a_this A) 0; VP bs 0] (mem st1) (nxt st1) (Ok (st2, Nrm)) /\
    mem st2 bs = Some (OD as') /\ (forall v, (0 <= v < 6)%Z -> aget as' v = Some (v_lz V * lget e v)) /\
    (forall c, (c < k)%Z -> c <> a_u A -> c <> bs -> mem st2 c = h c).
Proof.
  destruct after_displ as (st1 & u' & C1 & E & BD1 & M1 & FR1 & K1).
  destruct (displ_addrs _ _ _ _ ND FK) as (N1 & F1 & N2 & F2 & N3 & F3 & Q1 & Q2 & Q3 & Q4 & Q5).
  destruct (mean_strain3 V e u u' B F E) as (s & ES & G).
  destruct (calc_ave_strain_text V A vold vnew u' (mem st1) (nxt st1) bs as_ s (proj2 (proj2 B)) N3 (up_k _ K1) BD1 M1 LS ES)
    as (st2 & as' & C2 & _ & M2 & (_ & G2) & FR2 & _).
  exists st1, st2, as'. split; [exact C1|]. split; [exact C2|]. split; [exact M2|]. split.
  { intros v Hv. rewrite (G2 v Hv). now rewrite (G v Hv). }
  intros c Hc X Y. refine (frame_weak h _ _ k _ _ _ K1 FR1 FR2 c Hc _). cbn [In app]. intuition congruence.
Qed.
Theorem text_uniform3 m : vars_ok V vold vnew -> FemPd.linear V -> (forall c, (0 <= c < ncells V)%Z -> AsmPure.mat_at V c = m) ->
  exists st1 st2 as' s, calls asm_prog "set_displ" [VP (a_this A) 0; VP be 0] h k (Ok (st1, Nrm)) /\
    calls asm_prog "calc_ave_stress" [VP (a_this A) 0; VP bs 0] (mem st1) (nxt st1) (Ok (st2, Nrm)) /\
    mem st2 bs = Some (OD as') /\ vec 6 as' s /\
    (let t := m_lambda m * (lget e 0 + lget e 1 + lget e 2) in
     lget s 0 = v_lz V * (t + 2 * m_mu m * lget e 0) /\ lget s 1 = v_lz V * (t + 2 * m_mu m * lget e 1) /\
     lget s 2 = v_lz V * (t + 2 * m_mu m * lget e 2) /\ lget s 3 = v_lz V * (m_mu m * lget e 3) /\
     lget s 4 = v_lz V * (m_mu m * lget e 4) /\ lget s 5 = v_lz V * (m_mu m * lget e 5)) /\
    (forall c, (c < k)%Z -> c <> a_u A -> c <> bs -> c <> a_vn A -> mem st2 c = h c).
Proof.
  intros W L HM. destruct after_displ as (st1 & u' & C1 & E & BD1 & M1 & FR1 & K1).
  destruct (displ_addrs _ _ _ _ ND FK) as (N1 & F1 & N2 & F2 & N3 & F3 & Q1 & Q2 & Q3 & Q4 & Q5).
  destruct (uniform3 V m e u u' vold vnew B F W L HM E) as (s & vn & ES & G).
  destruct (calc_ave_stress_text V A vold vnew u' (mem st1) (nxt st1) bs as_ s vn (proj2 (proj2 B)) N3 (up_k _ K1) BD1 M1 LS ES)
    as (st2 & as' & C2 & _ & M2 & VS & FR2 & _).
  exists st1, st2, as', s. split; [exact C1|]. split; [exact C2|]. split; [exact M2|]. split; [exact VS|]. split; [exact G|].
  intros c Hc X Y Z. refine (frame_weak h _ _ k _ _ _ K1 FR1 FR2 c Hc _). cbn [In app]. intuition congruence.
Qed.
End Then.

(** ** calc_ave_stress and calc_fields *)
Theorem text_mean_stress3 V A vold vnew u h k bs as_ : body3 V -> full u (ndofs V) -> vars_ok V vold vnew ->
  NoDup (body_addrs A ++ [bs])%list -> Forall (fun a => (a < k)%Z) (body_addrs A ++ [bs])%list ->
  body V A vold vnew u h -> h bs = Some (OD as_) -> alen as_ = 6%Z ->
  exists st as' sig, calls asm_prog "calc_ave_stress" [VP (a_this A) 0; VP bs 0] h k (Ok (st, Nrm)) /\
    stress_field3 V u vold vnew sig /\ mem st bs = Some (OD as') /\
    (forall v, (0 <= v < 6)%Z -> aget as' v = Some (v_lz V * (quad_body3 V (fun ex ey ez g => sig ex ey ez g v) / volume3 V))) /\
    (forall c, (c < k)%Z -> c <> bs -> c <> a_vn A -> mem st c = h c).
Proof.
  intros B F W ND FK BD HS LS. destruct (mean_stress3 V u vold vnew B F W) as (s & vn & sig & E & SF & G).
  destruct (calc_ave_stress_text V A vold vnew u h k bs as_ s vn (proj2 (proj2 B)) ND FK BD HS LS E)
    as (st2 & as' & C2 & _ & M2 & (_ & VS) & FR2 & _).
  exists st2, as', sig. split; [exact C2|]. split; [exact SF|]. split; [exact M2|]. split.
  { intros v Hv. rewrite (VS v Hv). now rewrite (G v Hv). }
  intros c Hc X Y. apply FR2; [exact Hc|]. cbn [In]. intuition congruence.
Qed.
Theorem text_fields3 V A vold vnew u es et h k : body3 V -> full u (ndofs V) -> vars_ok V vold vnew ->
  alen es = (ncells V * 6)%Z -> alen et = (ncells V * 6)%Z ->
  NoDup (body_addrs A ++ [a_en A; a_es A])%list -> Forall (fun a => (a < k)%Z) (body_addrs A ++ [a_en A; a_es A])%list ->
  body V A vold vnew u h -> h (a_en A) = Some (OD es) -> h (a_es A) = Some (OD et) ->
  exists st es' et' eps sig, calls asm_prog "calc_fields" [VP (a_this A) 0] h k (Ok (st, Nrm)) /\
    mem st (a_en A) = Some (OD es') /\ mem st (a_es A) = Some (OD et') /\ strain_field3 V u eps /\ stress_field3 V u vold vnew sig /\
    (forall ex ey ez v, is_cell3 V ex ey ez -> (0 <= v < 6)%Z ->
       aget es' (cell3 V ex ey ez * 6 + v) = Some (rsum (zrange 0 8) (fun g => eps ex ey ez g v) / 8) /\
       aget et' (cell3 V ex ey ez * 6 + v) = Some (rsum (zrange 0 8) (fun g => sig ex ey ez g v) / 8)) /\
    (forall c, (c < k)%Z -> c <> a_en A -> c <> a_es A -> c <> a_vn A -> mem st c = h c).
Proof.
  intros B F W L1 L2 ND FK BD HN HS. destruct (cell_means3 V u vold vnew es et B F W L1 L2) as (es' & et' & vn & eps & sig & E & SF & TF & _ & _ & G).
  destruct (calc_fields_text V A vold vnew u es et h k es' et' vn (proj2 (proj2 B)) ND FK BD HN HS E) as (st & C & _ & M1 & M2 & FR & _).
  exists st, es', et', eps, sig. repeat (split; [assumption|]).
  intros c Hc X Y Q. apply FR; [exact Hc|]. cbn [In]. intuition congruence.
Qed.

(** ** Memories that also hold the strains and stresses of the cells, a prescribed strain and six numbers for an average *)
Definition home_out {T} `{Ops T} (V : env T) (vold vnew u et es : arr T) (o1 o2 : @obj T) (c : Z) : option (@obj T) :=
  if Z.eqb c 9 then Some (OD et) else if Z.eqb c 10 then Some (OD es) else home_mem V vold vnew u o1 o2 o2 c.
Lemma home_out_case {T} `{Ops T} (V : env T) vold vnew u et es o1 o2 : let h := home_out V vold vnew u et es o1 o2 in
  body V home vold vnew u h /\ h 11%Z = Some o1 /\ h 12%Z = Some o2 /\ h (a_es home) = Some (OD et) /\ h (a_en home) = Some (OD es) /\
  NoDup (body_addrs home ++ [11; 12]%Z)%list /\ Forall (fun a => (a < 14)%Z) (body_addrs home ++ [11; 12]%Z)%list /\
  NoDup (body_addrs home ++ [12]%Z)%list /\ Forall (fun a => (a < 14)%Z) (body_addrs home ++ [12]%Z)%list /\
  NoDup (body_addrs home ++ [a_en home; a_es home])%list /\ Forall (fun a => (a < 14)%Z) (body_addrs home ++ [a_en home; a_es home])%list /\
  NoDup [a_this home; a_u home; 11%Z] /\ Forall (fun a => (a < 14)%Z) [a_this home; a_u home; 11%Z] /\
  (exists fs, h (a_this home) = Some (OS fs) /\ this_in fs V home) /\ h (a_u home) = Some (OD u).
Proof.
  cbv zeta. assert (BD : body V home vold vnew u (home_out V vold vnew u et es o1 o2)).
  { eapply body_ext; [|apply (home_body V vold vnew u o1 o2 o2)].
    intros c I. cbn in I. repeat (destruct I as [<-|I]; [reflexivity|]). destruct I. }
  split; [exact BD|]. do 4 (split; [reflexivity|]).
  repeat match goal with |- NoDup _ /\ _ => split; [cbn; repeat (constructor; [cbn [In]; intuition discriminate|]); constructor|]
    | |- Forall _ _ /\ _ => split; [cbn; repeat (constructor; [lia|]); constructor|] end.
  split; [|reflexivity]. destruct BD as (fs & l2 & B0 & B1 & _). exists fs. auto.
Qed.
Definition solid3 : env R := AsmEx.box 3 4 5 3 1 2 3 stiff stiff.
Definition pull : list R := [1; 2; 3; 4; 5; 6].
Definition out_ok (V : env R) (u vold vnew et es : arr R) : Prop :=
  body3 V /\ FemPd.linear V /\ v_lz V <> 1 /\ full u (ndofs V) /\ vl u 5 <> 0 /\ vars_ok V vold vnew /\
  alen es = (ncells V * 6)%Z /\ alen et = (ncells V * 6)%Z /\ vec 6 (arr6 pull) pull /\ lget pull 3 <> 0 /\
  let h := home_out V vold vnew u et es (OD (arr6 pull)) (OD (blank 6)) in
  body V home vold vnew u h /\ h 11%Z = Some (OD (arr6 pull)) /\ h 12%Z = Some (OD (blank 6)) /\ h (a_es home) = Some (OD et) /\ h (a_en home) = Some (OD es) /\
  NoDup (body_addrs home ++ [11; 12]%Z)%list /\ Forall (fun a => (a < 14)%Z) (body_addrs home ++ [11; 12]%Z)%list /\
  NoDup (body_addrs home ++ [12]%Z)%list /\ Forall (fun a => (a < 14)%Z) (body_addrs home ++ [12]%Z)%list /\
  NoDup (body_addrs home ++ [a_en home; a_es home])%list /\ Forall (fun a => (a < 14)%Z) (body_addrs home ++ [a_en home; a_es home])%list /\
  NoDup [a_this home; a_u home; 11%Z] /\ Forall (fun a => (a < 14)%Z) [a_this home; a_u home; 11%Z] /\
  (exists fs, h (a_this home) = Some (OS fs) /\ this_in fs V home) /\ h (a_u home) = Some (OD u).
Lemma out_any V : body3 V -> FemPd.linear V -> v_lz V <> 1 -> (5 < ndofs V)%Z -> exists u vold vnew et es, out_ok V u vold vnew et es.
Proof.
  intros B L N D. pose proof (fun_arr_rep (ndofs V) (fun i => IZR i)) as U.
  set (u := fun_arr (ndofs V) (fun i => IZR i)) in *. set (v := fun_arr (ncells V * 56) (fun _ : Z => 0)).
  exists u, v, v, (blank (ncells V * 6)), (blank (ncells V * 6)). unfold out_ok.
  split; [exact B|]. split; [exact L|]. split; [exact N|]. split; [now apply rep_full in U|]. split.
  { rewrite (rep_val _ _ _ 5%Z U) by lia. lra. }
  split. { split; [|apply fun_arr_rep]. intros c g i Hc _ _ P. rewrite (L c Hc) in P. discriminate. }
  do 2 (split; [reflexivity|]). split; [apply arr6_vec|]. split; [change (4 <> 0); lra|]. apply home_out_case.
Qed.
Lemma out_case3 : AsmPure.mat_at blend3 0 <> AsmPure.mat_at blend3 1 /\ exists u vold vnew et es, out_ok blend3 u vold vnew et es.
Proof.
  split; [apply composite3|]. apply out_any; [exact blend3_body|exact blend3_linear|cbn; lra|reflexivity].
Qed.
Lemma out_solid3 : (forall c, (0 <= c < ncells solid3)%Z -> AsmPure.mat_at solid3 c = stiff) /\ exists u vold vnew et es, out_ok solid3 u vold vnew et es.
Proof.
  split. { intros c Hc. unfold solid3 in *. rewrite (AsmEx.box_mat 3 4 5 3 1 2 3 stiff stiff) by exact Hc. now destruct (_ =? _)%Z. }
  apply out_any; [| |cbn; lra|reflexivity].
  - split; [|split; [|reflexivity]]; [exact (AsmEx.box_sane 3 4 5 3 1 2 3 stiff stiff gb3 false false eq_refl eq_refl)|apply (AsmEx.box_geom 3 4 5 3 1 2 3 stiff stiff gb3); lra].
  - intros c Hc. exact (AsmEx.box_plastic 3 4 5 3 1 2 3 stiff stiff c false eq_refl eq_refl Hc).
Qed.
Lemma displ2_case : exists u fs, let h := home_out blend2 (blank 0) (blank 0) u (blank 0) (blank 0) (OD (arr6 pull)) (OD (blank 6)) in
  body2 blend2 /\ alen u = ndofs blend2 /\ vl u 5 <> 0 /\ NoDup [a_this home; a_u home; 11%Z] /\ Forall (fun a => (a < 14)%Z) [a_this home; a_u home; 11%Z] /\
  h (a_this home) = Some (OS fs) /\ this_in fs blend2 home /\ h (a_u home) = Some (OD u) /\ h 11%Z = Some (OD (arr6 pull)) /\ alen (arr6 pull) = 6%Z /\
  (forall i, (0 <= i < 3)%Z -> aget (arr6 pull) i = Some (lget pull i)) /\ lget pull 2 <> 0.
Proof.
  pose proof (fun_arr_rep (ndofs blend2) (fun i => IZR i)) as U. set (u := fun_arr (ndofs blend2) (fun i => IZR i)) in *.
  destruct (home_out_case blend2 (blank 0) (blank 0) u (blank 0) (blank 0) (OD (arr6 pull)) (OD (blank 6))) as (_ & H1 & _ & _ & _ & _ & _ & _ & _ & _ & _ & H2 & H3 & (fs & H4 & H5) & H6).
  exists u, fs. cbv zeta. split; [exact blend2_body|]. split; [apply U|]. split.
  { rewrite (rep_val _ _ _ 5%Z U) by (vm_compute; split; congruence). lra. }
  repeat (split; [assumption|]). destruct (arr6_vec pull) as (LE & GE). split; [exact LE|]. split; [intros i Hi; apply GE; cbn; lia|]. change (3 <> 0). lra.
Qed.
