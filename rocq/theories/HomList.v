(** The syntax tree of the body of the loop of homogenize, src/homogenize.cpp, run over a list of Gauss points all of which are in
    the linear range, against the model. *)
From Coq Require Import String FMapPositive.
From Verif Require Import Base Scalar EllSpec MicroModel Clite CliteRules EllAst AsmAst HomAst GpAst GetAst Sym SymStep Grid EllModel AssemblyModel
  AsmCalls AsmPure NewtonBase ApiBase ApiRun AsmLit AsmLit2 AsmLit9 AsmLit14 AsmLit15 AsmLit16 AsmLit22 ApiHist ApiExact Build HomLit HomLit2 HomLit3 HomLit4 FixInst GpLit GpLit2 GetLit.
Local Open Scope string_scope.
Local Open Scope Z_scope.

Section HL.
Context {T : Type} `{OT : Ops T}.
Notation obj := (@Clite.obj T).
Notation val := (@val T).

Definition gaddrs (G : gplace) : list Z := [p_gp G; p_eps G; p_ctan G; p_sig G; p_its G; p_err G].
(** the point g in memory, its answers at the entries in use *)
Definition gp_out (V : env T) (h : Z -> option obj) (g : gp T) (G : gplace) : Prop := exists gs ct sb zi zr,
  h (p_gp G) = Some (OS gs) /\ fget gs "int_vars_n" = Some (Some VNull) /\ fget gs "inv_max" = Some (Some (VD (g_inv g))) /\
  h (p_eps G) = Some (OD (g_strain g)) /\
  h (p_sig G) = Some (OD sb) /\ (forall i, 0 <= i < nvoi V -> aget sb i = aget (g_stress g) i) /\
  h (p_ctan G) = Some (OD ct) /\ (forall i, 0 <= i < nvoi V * nvoi V -> aget ct i = aget (g_ctan g) i) /\
  h (p_its G) = Some (OI zi) /\ h (p_err G) = Some (OD zr) /\ (forall i, 0 <= i <= nvoi V -> aget zi i = aget (g_its g) i /\ aget zr i = aget (g_err g) i).
Definition gp_start (h : Z -> option obj) (g : gp T) (G : gplace) : Prop := exists gs, gp_lin g G gs h.

Lemma out_ext V h h' g G : (forall a, In a (gaddrs G) -> h' a = h a) -> gp_out V h g G -> gp_out V h' g G.
Proof. intros X (gs & ct & sb & zi & zr & R). exists gs, ct, sb, zi, zr. rewrite !X by (cbn; tauto). exact R. Qed.
Lemma start_ext h h' g G : (forall a, In a (gaddrs G) -> h' a = h a) -> gp_start h g G -> gp_start h' g G.
Proof. intros X (gs & R). exists gs. unfold gp_lin in *. rewrite !X by (cbn; tauto). exact R. Qed.

Lemma nd9 (t v c g a x s i r : Z) rest : NoDup (t :: v :: c :: g :: a :: x :: s :: i :: r :: rest) ->
  NoDup [t; v; g; c; a; x; s; i; r] /\ NoDup (t :: v :: c :: rest) /\ (forall d, In d rest -> ~ In d [t; v; c; g; a; x; s; i; r]).
Proof.
  intros N. repeat match goal with H : NoDup (_ :: _) |- _ => inversion_clear H end. cbn [In] in *. split; [|split].
  - repeat (constructor; [cbn [In]; intros Q; repeat (destruct Q as [Q|Q]; [subst; tauto|]); exact Q|]). constructor.
  - constructor; [cbn [In]; tauto|]. constructor; [cbn [In]; tauto|]. constructor; [tauto|assumption].
  - intros d I Q. repeat (destruct Q as [Q|Q]; [subst; tauto|]). exact Q.
Qed.
Lemma nvars_one (V : env T) : sane V -> 1 <= nvars V.
Proof.
  intros S. rewrite nvars_eq. unfold ncells, nelem. pose proof (sa_nx V S). pose proof (sa_ny V S).
  destruct (dim_cases V S) as [D|D]; rewrite D; cbn [Z.eqb Pos.eqb]; [nia|]. pose proof (sane_nz V S D).
  assert (1 <= (v_nx V - 1) * (v_ny V - 1)) by nia. nia.
Qed.

Theorem homog_linear_list (V : env T) P cl c fuel orc : sane V -> dec 0 1 = (ofZ 0 : T) -> pfull c (nvoi V * nvoi V) ->
  forall l Gl w inv0 done j w' inv' lo j' k (h : Z -> option obj) fs i0 vo,
  Forall (gp_ok V) l -> Forall (fun g => g_n g = None /\ exists inv, is_linear V c (g_strain g) inv_min = Ok (true, inv)) l ->
  NoDup (a_this P :: a_vo P :: cl :: flat_map gaddrs Gl) -> Forall (fun a => a < k) (a_this P :: a_vo P :: cl :: flat_map gaddrs Gl) ->
  h (a_this P) = Some (OS fs) -> this_in fs V P -> fget fs "ctan_lin" = Some (ptr cl) -> fget fs "num_int_vars" = Some (Some (VI (nvars V))) ->
  fget fs "inv_max" = Some i0 -> fget fs "inv_tol" = Some (Some (VD (v_inv_tol V))) ->
  h cl = Some (OD c) -> h (a_vo P) = Some (OD vo) -> nvars V <= alen vo -> alen (w_vold w) = nvars V ->
  Forall2 (gp_start h) l Gl ->
  foldM (fun st g => let '(w, _, done, j) := st in
    ' r <- homog_gp fuel (orc j) V c w g ;; let '(w, inv, g) := r in Ok (w, Some inv, (done ++ [g])%list, (j + 1)%Z)) l (w, inv0, done, j) = Ok (w', inv', lo, j') ->
  exists l' h' k', lo = (done ++ l')%list /\ walk gp_prog "homogenize_gp" (a_this P) [] (map p_gp Gl) h k h' k' /\ Forall2 (gp_out V h') l' Gl /\
    (exists fs', h' (a_this P) = Some (OS fs') /\ forall f, f <> "inv_max" -> fget fs' f = fget fs f) /\
    (forall d, d < k -> ~ In d (a_this P :: a_vo P :: flat_map gaddrs Gl) -> h' d = h d).
Proof.
  intros S Z0 C. assert (DD : v_dim V = 2 \/ v_dim V = 3) by exact (dim_cases V S). pose proof (nvars_one V S) as NP.
  induction l as [|g l IH]; intros Gl w inv0 done j w' inv' lo j' k h fs i0 vo GO LN ND FK MT TI FC FN FM FL HC HV LV LW FA E; inversion FA as [|g0 G l0 Gl' GA FA']; subst.
  - cbn [foldM] in E. injection E as _ _ <- _. exists [], h, k. split; [now rewrite app_nil_r|]. split; [apply walk_end|]. split; [constructor|]. split; [exists fs; auto|auto].
  - inversion GO as [|g0 l0 Gg GO']; subst. inversion LN as [|g0 l0 Lg LN']; subst. destruct Lg as (EN & inv & EL).
    cbn [foldM] in E. apply bind_ok in E. destruct E as ([[[w1 i1] d1] j1] & E1 & E). apply bind_ok in E1. destruct E1 as ([[w2 inv2] g2] & EH & Q). cbv iota zeta in Q. injection Q as <- <- <- <-.
    cbn [flat_map gaddrs app] in ND, FK. destruct (nd9 _ _ _ _ _ _ _ _ _ _ ND) as (N9 & NDr & DIS).
    assert (FK9 : Forall (fun a => a < k) [a_this P; a_vo P; p_gp G; cl; p_eps G; p_ctan G; p_sig G; p_its G; p_err G]).
    { rewrite Forall_forall in *. intros a I. apply FK. cbn [In] in *. tauto. }
    assert (FKr : Forall (fun a => a < k) (a_this P :: a_vo P :: cl :: flat_map gaddrs Gl')).
    { rewrite Forall_forall in *. intros a I. apply FK. cbn [In] in *. tauto. }
    destruct GA as (gs & MG & GE & GC & GS & GI & GR & GN & GM & HE & HT & HS & HI & HR).
    destruct (gp_linear_text V P (p_gp G) cl (p_eps G) (p_ctan G) (p_sig G) (p_its G) (p_err G) k h fs gs c (g_strain g) vo (g_ctan g) (g_stress g) (g_its g) (g_err g)
      i0 (Some (VD (g_inv g))) inv _ DD N9 FK9 MT TI FC FN FM FL MG GE GC GS GI GR GN GM HC HE HV HT HS HI HR (conj (Z.le_trans 0 1 _ Z.le_0_1 NP) LV)
      (go_ctan V g Gg) (go_stress V g Gg) (go_its V g Gg) (go_err V g Gg) C EL (lin_stress_ok V c (g_strain g) S C (go_e V g Gg)))
      as (st & fs' & gs' & vo' & ct & sb & zi & zr & CL & T1 & T2 & T3 & T4 & T5 & T6 & T7 & T8 & T9 & T10 & T11 & T12 & T13 & T14 & T15 & T16).
    unfold homog_gp in EH. destruct (load_ok V (g_n g) (w_vold w) S LW) as (v1 & Eo & Fo' & Go); [rewrite EN; discriminate|].
    rewrite Eo in EH. cbn [bind] in EH. rewrite EL in EH. cbn [bind fst snd] in EH. rewrite EN in EH. cbn [andb] in EH.
    destruct (homog_linear_ok V c g inv S C Gg) as (g3 & E3 & _ & _ & _ & H2 & H3 & _ & H5 & H6 & H7 & H8). rewrite E3 in EH. cbn [bind] in EH. injection EH as <- <- <-.
    pose proof (calls_nxt _ _ _ _ _ _ _ CL) as KN.
    assert (KO : forall d, In d (flat_map gaddrs Gl') -> mem st d = h d).
    { intros d I. apply T16; [rewrite Forall_forall in FKr; apply FKr; cbn [In]; tauto|]. intros Q. apply (DIS d I). cbn [In] in *. tauto. }
    assert (NCL : ~ In cl [a_this P; p_gp G; a_vo P; p_sig G; p_ctan G; p_its G; p_err G]).
    { destruct (nine _ _ _ _ _ _ _ _ _ N9) as (D1 & D2 & D3 & D4 & D5 & D6 & D7 & D8 & D9 & D10 & D11 & D12 & D13 & D14 & D15 & D16 & D17 & D18 & D19 & D20 & D21 & D22 & D23 & D24 & D25 & D26 & _).
      clear - D1 D2 D3 D10 D16 D22 D23 D24 D25 D26. cbn [In]. intuition congruence. }
    assert (KCL : cl < k) by (rewrite Forall_forall in FK9; apply FK9; cbn [In]; tauto).
    assert (LV' : nvars V <= alen vo').
    { destruct (Z.le_gt_cases (nvars V) (alen vo')) as [|Q]; [assumption|]. exfalso. pose proof (T8 (nvars V - 1) ltac:(lia)) as X. rewrite aget_out in X by lia. discriminate X. }
    match type of E with foldM _ _ (?w0, ?i, ?d, ?jj) = _ =>
      destruct (IH Gl' w0 i d jj w' inv' lo j' (nxt st) (mem st) fs' (Some (VD inv)) vo' GO' LN' NDr) as (l' & h' & k' & EQ & W & F' & (fs2 & M2 & X2) & FR) end.
    + rewrite Forall_forall in *. intros a I. specialize (FKr a I). cbv beta in FKr. lia.
    + exact T1.
    + exact (this_keep V P fs fs' T3 TI).
    + rewrite T3 by discriminate. exact FC.
    + rewrite T3 by discriminate. exact FN.
    + exact T2.
    + rewrite T3 by discriminate. exact FL.
    + rewrite T16; [exact HC|exact KCL|exact NCL].
    + exact T7.
    + exact LV'.
    + exact (full_alen _ _ Fo').
    + assert (GEN : forall ll, (forall u, In u ll -> In u Gl') -> forall gl, Forall2 (gp_start h) gl ll -> Forall2 (gp_start (mem st)) gl ll).
      { induction ll as [|u ll IHl]; intros SB gl F; inversion F; subst; constructor.
        - apply (start_ext h); [|assumption]. intros a I. apply KO. apply in_flat_map. exists u. split; [apply SB; now left|exact I].
        - apply IHl; [intros v I; apply SB; now right|assumption]. }
      now apply GEN.
    + exact E.
    + assert (NG : forall a, In a (gaddrs G) -> h' a = mem st a).
      { intros a I. apply FR.
        - rewrite Forall_forall in FK9. specialize (FK9 a). cbv beta in FK9. cbn [gaddrs In] in I, FK9. assert (a < k) by (apply FK9; tauto). lia.
        - intros Q. cbn [In] in Q. destruct (nine _ _ _ _ _ _ _ _ _ N9) as (D1 & D2 & D3 & D4 & D5 & D6 & D7 & D8 & D9 & D10 & D11 & D12 & D13 & D14 & D15 & D16 & _).
          destruct Q as [Q|[Q|Q]]; [| |apply (DIS a Q); cbn [gaddrs In] in *; tauto]; subst a; cbn [gaddrs In] in I; intuition congruence. }
      exists (g3 :: l'), h', k'. split; [rewrite EQ, <- app_assoc; reflexivity|]. split; [cbn [map]; eapply walk_next; [exact CL|exact W]|]. split.
      { constructor; [|exact F']. apply (out_ext V (mem st)); [exact NG|]. exists gs', ct, sb, zi, zr. split; [exact T4|]. split; [rewrite T6 by discriminate; exact GN|].
        split; [rewrite H5; exact T5|]. split.
        { rewrite H2, T16; [exact HE|rewrite Forall_forall in FK9; apply FK9; cbn [In]; tauto|].
          destruct (nine _ _ _ _ _ _ _ _ _ N9) as (D1 & D2 & D3 & D4 & D5 & D6 & D7 & D8 & D9 & D10 & D11 & D12 & D13 & D14 & D15 & D16 & D17 & D18 & D19 & D20 & D21 & D22 & D23 & D24 & D25 & D26 & D27 & D28 & D29 & D30 & _).
          clear - D4 D11 D17 D27 D28 D29 D30. cbn [In]. intuition congruence. }
        split; [exact T9|]. split; [intros i Hi; rewrite (T10 i Hi), (H6 i Hi); now rewrite lget_ltab|].
        split; [exact T11|]. split; [intros i Hi; now rewrite (T12 i Hi), (H7 i Hi)|]. split; [exact T13|]. split; [exact T14|].
        intros i Hi. destruct (T15 i Hi) as (X & Y). destruct (H8 i ltac:(lia)) as (X' & Y'). rewrite X, Y, X', Y', Z0. auto. }
      split. { exists fs2. split; [exact M2|]. intros f NF. rewrite X2, T3 by exact NF. reflexivity. }
      intros d DK NI. cbn [flat_map gaddrs app In] in NI. rewrite FR; [|lia|cbn [In]; tauto]. apply T16; [exact DK|]. cbn [In]. tauto.
Qed.

(** the loop of the model, from its start *)
Theorem homog_linear_text (V : env T) P cl c fuel orc l Gl w inv0 w' inv' l' j' k (h : Z -> option obj) fs i0 : sane V -> dec 0 1 = (ofZ 0 : T) -> pfull c (nvoi V * nvoi V) -> wfull V w ->
  Forall (gp_ok V) l -> Forall (fun g => g_n g = None /\ exists inv, is_linear V c (g_strain g) inv_min = Ok (true, inv)) l ->
  NoDup (a_this P :: a_vo P :: cl :: flat_map gaddrs Gl) -> Forall (fun a => a < k) (a_this P :: a_vo P :: cl :: flat_map gaddrs Gl) ->
  h (a_this P) = Some (OS fs) -> this_in fs V P -> fget fs "ctan_lin" = Some (ptr cl) -> fget fs "num_int_vars" = Some (Some (VI (nvars V))) ->
  fget fs "inv_max" = Some i0 -> fget fs "inv_tol" = Some (Some (VD (v_inv_tol V))) ->
  h cl = Some (OD c) -> h (a_vo P) = Some (OD (w_vold w)) -> Forall2 (gp_start h) l Gl ->
  homog_list fuel orc V c l w inv0 = Ok (w', inv', l', j') ->
  exists h' k', walk gp_prog "homogenize_gp" (a_this P) [] (map p_gp Gl) h k h' k' /\ Forall2 (gp_out V h') l' Gl /\
    (exists fs', h' (a_this P) = Some (OS fs') /\ forall f, f <> "inv_max" -> fget fs' f = fget fs f) /\
    (forall d, d < k -> ~ In d (a_this P :: a_vo P :: flat_map gaddrs Gl) -> h' d = h d).
Proof.
  intros S Z0 C (_ & Fo & _) GO LN ND FK MT TI FC FN FM FL HC HV FA E. pose proof (full_alen _ _ Fo) as LW.
  destruct (homog_linear_list V P cl c fuel orc S Z0 C l Gl w inv0 [] 0 w' inv' l' j' k h fs i0 (w_vold w) GO LN ND FK MT TI FC FN FM FL HC HV ltac:(lia) LW FA E)
    as (l2 & h' & k' & EQ & R). cbn [app] in EQ. subst l2. exists h', k'. exact R.
Qed.

(** two points in memory *)
Definition hl_flds (G : gplace) (g : gp T) : list (string * option val) :=
  [("macro_strain", ptr (p_eps G)); ("macro_ctan", ptr (p_ctan G)); ("macro_stress", ptr (p_sig G)); ("nr_its", ptr (p_its G)); ("nr_err", ptr (p_err G));
   ("int_vars_n", Some VNull); ("int_vars_k", Some VNull); ("inv_max", Some (VD (g_inv g)))].
Definition hl_home : gplace := mkGplace 25 26 27 28 29 30.
Definition hl_mem (V : env T) (w : MicroModel.work T) (c : arr T) (g g2 : gp T) (m : T) (a : Z) : option obj :=
  if a =? 25 then Some (OS (hl_flds hl_home g2)) else if a =? 26 then Some (OD (g_strain g2)) else if a =? 27 then Some (OD (g_ctan g2)) else
  if a =? 28 then Some (OD (g_stress g2)) else if a =? 29 then Some (OI (g_its g2)) else if a =? 30 then Some (OD (g_err g2)) else
  gp_mem V w c g (Some VNull) (Some VNull) (malloc 0) (malloc 0) m a.
End HL.

Definition fx_gp2 : gp fx := mkGp 9 (malloc 7) None None (strain6 1) (malloc 6) (malloc 36) (malloc 7) inv_min.
Lemma homog_list_case : exists o w' inv' l', let l := [fx_gp; fx_gp2] in let V := o_env o in
  let h := hl_mem V (o_work o) (o_ctan o) fx_gp fx_gp2 (ofZ 0) in let fs := obj_flds V (ofZ 0) in
  sane V /\ dec 0 1 = (ofZ 0 : fx) /\ pfull (o_ctan o) (nvoi V * nvoi V) /\ wfull V (o_work o) /\ Forall (gp_ok V) l /\
  Forall (fun g => g_n g = None /\ exists inv, is_linear V (o_ctan o) (g_strain g) inv_min = Ok (true, inv)) l /\
  NoDup (a_this home :: a_vo home :: 16 :: flat_map gaddrs [gp_home; hl_home]) /\
  h (a_this home) = Some (OS fs) /\ this_in fs V home /\ fget fs "ctan_lin" = Some (ptr 16) /\ fget fs "num_int_vars" = Some (Some (VI (nvars V))) /\
  fget fs "inv_max" = Some (Some (VD (ofZ 0))) /\ fget fs "inv_tol" = Some (Some (VD (v_inv_tol V))) /\
  h 16 = Some (OD (o_ctan o)) /\ h (a_vo home) = Some (OD (w_vold (o_work o))) /\ Forall2 (gp_start h) l [gp_home; hl_home] /\
  homog_list 5 (fun _ _ => alone) V (o_ctan o) l (o_work o) None = Ok (w', inv', l', 2).
Proof.
  destruct gp_linear_case as (o & inv & w' & g' & _ & S & Z0 & W & C & G & E & _ & _ & _ & M1 & F1 & F2 & F3 & F4 & F5 & GL & M2 & M3).
  assert (G2 : gp_ok (o_env o) fx_gp2) by (destruct G as [A1 A2 A3 A4 A5 A6 A7 A8]; constructor; assumption).
  pose proof E as E0. rewrite (is_linear_ok (o_env o) (o_ctan o) _ inv_min S C (go_e _ _ G)) in E0.
  assert (E1 : oltb (oabs (inv_val (o_env o) (o_ctan o) (g_strain fx_gp))) (v_inv_tol (o_env o)) = true) by exact (f_equal (fun r => match r with Ok (b, _) => b | Err _ => false end) E0).
  destruct (ApiExact.homog_gp_linear (o_env o) 5 (fun _ => alone) (o_ctan o) (o_work o) fx_gp S W C G (conj E1 eq_refl)) as (vo & ga & EA & FA & _).
  assert (W2 : wfull (o_env o) (set_vold (o_work o) vo)).
  { destruct W as (K & _ & Fn). split; [|split; assumption]. destruct K as [A1 A2 A3 A4 A5 A6]. constructor; try assumption. cbn.
    intros e q i He Hq Hi _. apply (proj2 FA). rewrite nvars_eq. unfold intvar_ix. lia. }
  destruct (ApiExact.homog_gp_linear (o_env o) 5 (fun _ => alone) (o_ctan o) (set_vold (o_work o) vo) fx_gp2 S W2 C G2 (conj E1 eq_refl)) as (vo2 & gb & EB & _).
  eexists o, _, _, [ga; gb]. cbv zeta. split; [exact S|]. split; [exact Z0|]. split; [exact C|]. split; [exact W|]. split; [constructor; [exact G|constructor; [exact G2|constructor]]|].
  split; [constructor; [split; [reflexivity|exists inv; exact E]|constructor; [split; [reflexivity|exists inv; exact E]|constructor]]|].
  split; [cbn; repeat (constructor; [cbn [In]; intuition discriminate|]); constructor|]. split; [reflexivity|].
  split; [exact F1|]. split; [exact F2|]. split; [exact F3|]. split; [exact F4|]. split; [exact F5|]. split; [reflexivity|]. split; [reflexivity|].
  split. { constructor; [|constructor; [|constructor]]; [exists (gp_flds fx_gp (Some VNull) (Some VNull))|exists (hl_flds hl_home fx_gp2)]; unfold gp_lin; repeat split; reflexivity. }
  unfold homog_list. cbn [foldM]. rewrite EA. cbn [bind app]. rewrite EB. reflexivity.
Qed.
