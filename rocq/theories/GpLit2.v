(** The text of one pass over a Gauss point in the linear range against the model's homog_gp, the text of update_vars
    against update_gp, and memories on which they run. *)
From Coq Require Import String FMapPositive.
From Verif Require Import Base Scalar EllSpec EllInit MicroModel Clite CliteRules EllAst AsmAst HomAst GpAst Sym SymStep Grid EllModel AssemblyModel
  AsmCalls AsmPure NewtonBase ApiBase ApiRun ApiHist ApiExact Build AsmLit AsmLit2 AsmLit9 AsmLit14 AsmLit15 AsmLit16 AsmLit17 AsmLit18 AsmLit22 FixInst HomLit HomLit2 HomLit3 HomLit4 GpLit.
Local Open Scope string_scope.
Local Open Scope Z_scope.

Section Gp2.
Context {T : Type} `{OT : Ops T}.
Notation obj := (@Clite.obj T).
Notation val := (@val T).

(** where the arrays of a Gauss point are *)
Record gplace := mkGplace { p_gp : Z; p_eps : Z; p_ctan : Z; p_sig : Z; p_its : Z; p_err : Z }.
(** the Gauss point g in memory, its old variables absent *)
Definition gp_lin (g : gp T) (G : gplace) (gs : list (string * option val)) (h : Z -> option obj) : Prop :=
  h (p_gp G) = Some (OS gs) /\ fget gs "macro_strain" = Some (ptr (p_eps G)) /\ fget gs "macro_ctan" = Some (ptr (p_ctan G)) /\
  fget gs "macro_stress" = Some (ptr (p_sig G)) /\ fget gs "nr_its" = Some (ptr (p_its G)) /\ fget gs "nr_err" = Some (ptr (p_err G)) /\
  fget gs "int_vars_n" = Some (Some VNull) /\ fget gs "inv_max" = Some (Some (VD (g_inv g))) /\
  h (p_eps G) = Some (OD (g_strain g)) /\ h (p_ctan G) = Some (OD (g_ctan g)) /\ h (p_sig G) = Some (OD (g_stress g)) /\
  h (p_its G) = Some (OI (g_its g)) /\ h (p_err G) = Some (OD (g_err g)).

Theorem gp_linear_refines (V : env T) P G cl k (h : Z -> option obj) fs gs c w g fuel orc w' inv inv' g' i0 :
  sane V -> dec 0 1 = (ofZ 0 : T) -> wfull V w -> pfull c (nvoi V * nvoi V) -> gp_ok V g ->
  NoDup [a_this P; a_vo P; p_gp G; cl; p_eps G; p_ctan G; p_sig G; p_its G; p_err G] ->
  Forall (fun a => a < k) [a_this P; a_vo P; p_gp G; cl; p_eps G; p_ctan G; p_sig G; p_its G; p_err G] ->
  h (a_this P) = Some (OS fs) -> this_in fs V P -> fget fs "ctan_lin" = Some (ptr cl) -> fget fs "num_int_vars" = Some (Some (VI (nvars V))) ->
  fget fs "inv_max" = Some i0 -> fget fs "inv_tol" = Some (Some (VD (v_inv_tol V))) ->
  gp_lin g G gs h -> h cl = Some (OD c) -> h (a_vo P) = Some (OD (w_vold w)) ->
  is_linear V c (g_strain g) inv_min = Ok (true, inv) -> g_n g = None ->
  homog_gp fuel orc V c w g = Ok (w', inv', g') ->
  exists st fs' gs' vo ct sb zi zr, calls gp_prog "homogenize_gp" [VP (a_this P) 0; VP (p_gp G) 0] h k (Ok (st, Nrm)) /\
    mem st (a_this P) = Some (OS fs') /\ fget fs' "inv_max" = Some (Some (VD inv')) /\ (forall f, f <> "inv_max" -> fget fs' f = fget fs f) /\
    mem st (p_gp G) = Some (OS gs') /\ fget gs' "inv_max" = Some (Some (VD (g_inv g'))) /\ (forall f, f <> "inv_max" -> fget gs' f = fget gs f) /\
    mem st (a_vo P) = Some (OD vo) /\ (forall i, 0 <= i < nvars V -> aget vo i = aget (w_vold w') i) /\
    mem st (p_sig G) = Some (OD sb) /\ (forall i, 0 <= i < nvoi V -> aget sb i = aget (g_stress g') i) /\
    mem st (p_ctan G) = Some (OD ct) /\ (forall i, 0 <= i < nvoi V * nvoi V -> aget ct i = aget (g_ctan g') i) /\
    mem st (p_its G) = Some (OI zi) /\ mem st (p_err G) = Some (OD zr) /\
    (forall i, 0 <= i <= nvoi V -> aget zi i = aget (g_its g') i /\ aget zr i = aget (g_err g') i) /\
    (forall d, d < k -> ~ In d [a_this P; p_gp G; a_vo P; p_sig G; p_ctan G; p_its G; p_err G] -> mem st d = h d).
Proof.
  intros S Z0 W C GO ND FK MT TI FC FN FM FL GL HC HV EL EN E.
  destruct GL as (MG & GE & GC & GS & GI & GR & GN & GM & HE & HT & HS & HI & HR).
  assert (DD : v_dim V = 2 \/ v_dim V = 3) by exact (dim_cases V S).
  pose proof (nvars_pos V S) as NP. destruct W as (K & Fo & Fn). pose proof (full_alen _ _ Fo) as LO.
  assert (HVN : 0 <= nvars V <= alen (w_vold w)) by lia.
  destruct (gp_linear_text V P (p_gp G) cl (p_eps G) (p_ctan G) (p_sig G) (p_its G) (p_err G) k h fs gs c (g_strain g) (w_vold w) (g_ctan g) (g_stress g) (g_its g) (g_err g)
    i0 (Some (VD (g_inv g))) inv _ DD ND FK MT TI FC FN FM FL MG GE GC GS GI GR GN GM HC HE HV HT HS HI HR HVN
    (go_ctan V g GO) (go_stress V g GO) (go_its V g GO) (go_err V g GO) C EL (lin_stress_ok V c (g_strain g) S C (go_e V g GO)))
    as (st & fs' & gs' & vo & ct & sb & zi & zr & CL & T1 & T2 & T3 & T4 & T5 & T6 & T7 & T8 & T9 & T10 & T11 & T12 & T13 & T14 & T15 & T16).
  unfold homog_gp in E. destruct (load_ok V (g_n g) (w_vold w) S LO) as (v1 & Eo & Fo' & Go); [rewrite EN; discriminate|].
  rewrite Eo in E. cbn [bind] in E. rewrite EL in E. cbn [bind fst snd] in E. rewrite EN in E. cbn [andb] in E.
  destruct (homog_linear_ok V c g inv S C GO) as (g2 & E2 & _ & _ & _ & _ & _ & _ & H5 & H6 & H7 & H8). rewrite E2 in E. cbn [bind] in E. injection E as <- <- <-.
  exists st, fs', gs', vo, ct, sb, zi, zr. split; [exact CL|]. split; [exact T1|]. split; [exact T2|]. split; [exact T3|]. split; [exact T4|].
  split; [rewrite H5; exact T5|]. split; [exact T6|]. split; [exact T7|]. split.
  { intros i Hi. rewrite (T8 i Hi). cbn [set_vold w_vold]. rewrite (Go i Hi), EN. now rewrite Z0. }
  split; [exact T9|]. split. { intros i Hi. rewrite (T10 i Hi), (H6 i Hi). now rewrite lget_ltab. }
  split; [exact T11|]. split. { intros i Hi. now rewrite (T12 i Hi), (H7 i Hi). }
  split; [exact T13|]. split; [exact T14|]. split; [|exact T16].
  intros i Hi. destruct (T15 i Hi) as (X & Y). destruct (H8 i ltac:(lia)) as (X' & Y'). rewrite X, Y, X', Y', Z0. auto.
Qed.

Theorem gp_update_refines (V : env T) P ga k (h : Z -> option obj) fs gs g g' : sane V -> gp_ok V g -> a_this P <> ga ->
  h (a_this P) = Some (OS fs) -> fget fs "num_int_vars" = Some (Some (VI (nvars V))) -> h ga = Some (OS gs) ->
  update_gp V g = Ok g' ->
  match g_n g, g_k g with
  | None, None => fget gs "int_vars_n" = Some (Some VNull) ->
      exists st, calls gp_prog "update_gp" [VP (a_this P) 0; VP ga 0] h k (Ok (st, Nrm)) /\ g' = g /\ mem st = h /\ nxt st = k
  | Some n, Some kk => forall bn bk, fget gs "int_vars_n" = Some (ptr bn) -> fget gs "int_vars_k" = Some (ptr bk) ->
      h bn = Some (OD n) -> h bk = Some (OD kk) -> bn <> bk ->
      exists st n1 n2, calls gp_prog "update_gp" [VP (a_this P) 0; VP ga 0] h k (Ok (st, Nrm)) /\
        g_n g' = Some n2 /\ mem st bn = Some (OD n1) /\ alen n1 = alen n2 /\ (forall i, aget n1 i = aget n2 i) /\
        (forall d, d <> bn -> mem st d = h d) /\ nxt st = k
  | _, _ => True
  end.
Proof.
  intros S GO NE MT FN MG E. destruct (update_gp_ok V g S GO) as (g2 & E2 & R & _). assert (g2 = g') by congruence. subst g2.
  destruct (gp_update_text V P ga k h fs gs NE MT FN MG) as (U0 & U1). destruct R as (_ & _ & _ & _ & _ & _ & _ & _ & R).
  pose proof (go_vars V g GO) as GV. pose proof (nvars_pos V S) as NP.
  destruct (g_n g) as [n|] eqn:En, (g_k g) as [kk|] eqn:Ek; try exact I.
  - intros bn bk GN GK HN HK NB. destruct GV as (Fn & Fk). destruct R as (n2 & E3 & F2 & G2).
    destruct (U1 bn bk n kk GN GK HN HK NB ltac:(rewrite (full_alen _ _ Fn); lia) (proj2 Fk)) as (st & n1 & CL & M1 & L1 & A1 & A2 & O1 & X1).
    exists st, n1, n2. split; [exact CL|]. split; [exact E3|]. split; [exact M1|]. split; [rewrite L1, (full_alen _ _ Fn), (full_alen _ _ F2); reflexivity|].
    split; [|split; [exact O1|exact X1]]. intros i. assert (D : 0 <= i < nvars V \/ ~ 0 <= i < nvars V) by lia. destruct D as [Hi|Hi].
    + now rewrite (A1 i Hi), G2.
    + rewrite (A2 i Hi). rewrite !aget_out; [reflexivity| |]; [rewrite (full_alen _ _ F2)|rewrite (full_alen _ _ Fn)]; exact Hi.
  - intros GN. destruct (U0 GN) as (st & CL & M1 & X1). exists st. split; [exact CL|]. split; [|auto].
    unfold update_gp in E. rewrite En in E. now injection E as <-.
Qed.

Ltac nodup := cbn [map fst In app]; repeat (constructor; [cbn [In]; intuition discriminate|]); constructor.
(** the object at 0 and a Gauss point at 17, its arrays behind it *)
Definition gp_home : gplace := mkGplace 17 18 19 20 21 22.
Definition obj_flds (V : env T) (m : T) : list (string * option val) := (lin_flds V m ++ [("num_int_vars", Some (VI (nvars V)))])%list.
Definition gp_flds (g : gp T) (n k : option val) : list (string * option val) :=
  [("macro_strain", ptr 18); ("macro_ctan", ptr 19); ("macro_stress", ptr 20); ("nr_its", ptr 21); ("nr_err", ptr 22);
   ("int_vars_n", n); ("int_vars_k", k); ("inv_max", Some (VD (g_inv g)))].
Definition gp_mem (V : env T) (w : MicroModel.work T) (c : arr T) (g : gp T) (n k : option val) (an ak : arr T) (m : T) (a : Z) : option obj :=
  if a =? 0 then Some (OS (obj_flds V m)) else if a =? 3 then Some (OD (w_vold w)) else if a =? 16 then Some (OD c) else if a =? 17 then Some (OS (gp_flds g n k)) else
  if a =? 18 then Some (OD (g_strain g)) else if a =? 19 then Some (OD (g_ctan g)) else if a =? 20 then Some (OD (g_stress g)) else
  if a =? 21 then Some (OI (g_its g)) else if a =? 22 then Some (OD (g_err g)) else if a =? 23 then Some (OD an) else if a =? 24 then Some (OD ak) else None.
Lemma obj_flds_case V m : this_in (obj_flds V m) V home /\ fget (obj_flds V m) "ctan_lin" = Some (ptr 16) /\
  fget (obj_flds V m) "num_int_vars" = Some (Some (VI (nvars V))) /\ fget (obj_flds V m) "inv_max" = Some (Some (VD m)) /\
  fget (obj_flds V m) "inv_tol" = Some (Some (VD (v_inv_tol V))).
Proof.
  split; [|split; [reflexivity|split; [reflexivity|split; reflexivity]]].
  intros f x I. apply this_fget; [nodup|]. unfold obj_flds, lin_flds. apply in_or_app. left. apply in_or_app. left. exact I.
Qed.
End Gp2.

(** a point of one cell of two dimensions at a strain below the tolerance *)
Definition strain6 (z : Z) : arr fx := mkArr 6 (PositiveMap.add (key 0) (fd z 8) (PositiveMap.add (key 1) (ofZ 0) (PositiveMap.add (key 2) (ofZ 0) (PositiveMap.empty fx)))).
Definition fx_gp : gp fx := mkGp 7 (malloc 7) None None (strain6 1) (malloc 6) (malloc 36) (malloc 7) inv_min.
Lemma fx_gp_linear : match construct 5 (fun _ => alone) ex_junk 2 [2; 2; 1] 0 ex_mp [0; 0] ex_ps with
  | Ok o => match is_linear (o_env o) (o_ctan o) (g_strain fx_gp) inv_min with Ok (b, m) => b = true /\ micro m = 3 | Err _ => False end
  | Err _ => False end.
Proof. vm_compute. repeat split. Qed.
Lemma gp_linear_case : exists o inv w' g', v_dim (o_env o) = 2 /\ sane (o_env o) /\ dec 0 1 = (ofZ 0 : fx) /\ wfull (o_env o) (o_work o) /\
  pfull (o_ctan o) (nvoi (o_env o) * nvoi (o_env o)) /\ gp_ok (o_env o) fx_gp /\
  is_linear (o_env o) (o_ctan o) (g_strain fx_gp) inv_min = Ok (true, inv) /\ micro inv = 3 /\
  homog_gp 5 (fun _ => alone) (o_env o) (o_ctan o) (o_work o) fx_gp = Ok (w', inv, g') /\
  let h := gp_mem (o_env o) (o_work o) (o_ctan o) fx_gp (Some VNull) (Some VNull) (malloc 0) (malloc 0) (ofZ 0) in
  let fs := obj_flds (o_env o) (ofZ 0) in
  NoDup [a_this home; a_vo home; p_gp gp_home; 16; p_eps gp_home; p_ctan gp_home; p_sig gp_home; p_its gp_home; p_err gp_home] /\
  h (a_this home) = Some (OS fs) /\ this_in fs (o_env o) home /\ fget fs "ctan_lin" = Some (ptr 16) /\ fget fs "num_int_vars" = Some (Some (VI (nvars (o_env o)))) /\
  fget fs "inv_max" = Some (Some (VD (ofZ 0))) /\ fget fs "inv_tol" = Some (Some (VD (v_inv_tol (o_env o)))) /\
  gp_lin fx_gp gp_home (gp_flds fx_gp (Some VNull) (Some VNull)) h /\ h 16 = Some (OD (o_ctan o)) /\ h (a_vo home) = Some (OD (w_vold (o_work o))).
Proof.
  destruct built_case as (_ & VA & TJ & _).
  pose proof (construct_ok 5 (fun _ => alone) ex_junk 2 2 2 1 0 ex_mp [0; 0] ex_ps VA TJ) as X. pose proof fx_gp_linear as R.
  destruct (construct 5 (fun _ => alone) ex_junk 2 [2; 2; 1] 0 ex_mp [0; 0] ex_ps) as [o|]; [|contradiction].
  destruct X as ((OK & _) & (tol & _ & EV) & _). pose proof (eo_dim _ _ _ _ _ _ _ _ _ _ EV) as D2.
  destruct (is_linear (o_env o) (o_ctan o) (g_strain fx_gp) inv_min) as [(b & inv)|] eqn:E; [|contradiction]. destruct R as (-> & R).
  pose proof (ok_sane o OK) as S. pose proof (ok_work o OK) as W. pose proof (ok_ctan o OK) as C.
  assert (N3 : nvoi (o_env o) = 3) by (unfold nvoi; now rewrite D2).
  assert (G : gp_ok (o_env o) fx_gp).
  { constructor; try reflexivity. intros i Hi. rewrite N3 in Hi.
    assert (Q : i = 0 \/ i = 1 \/ i = 2) by lia. destruct Q as [->|[->| ->]]; eexists; reflexivity. }
  pose proof E as E0. rewrite (is_linear_ok (o_env o) (o_ctan o) _ inv_min S C (go_e _ _ G)) in E0.
  assert (E1 : oltb (oabs (inv_val (o_env o) (o_ctan o) (g_strain fx_gp))) (v_inv_tol (o_env o)) = true) by exact (f_equal (fun r => match r with Ok (b, _) => b | Err _ => false end) E0).
  assert (E2 : ApiExact.prev_max (o_env o) (o_ctan o) fx_gp = inv) by exact (f_equal (fun r => match r with Ok (_, m) => m | Err _ => ofZ 0 end) E0).
  destruct (ApiExact.homog_gp_linear (o_env o) 5 (fun _ => alone) (o_ctan o) (o_work o) fx_gp S W C G (conj E1 eq_refl)) as (vo & g' & EH & _).
  rewrite E2 in EH.
  exists o, inv, (set_vold (o_work o) vo), g'. split; [exact D2|]. split; [exact S|]. split; [exact fx_zero|]. split; [exact W|]. split; [exact C|]. split; [exact G|].
  split; [exact E|]. split; [exact R|]. split; [exact EH|]. cbv zeta.
  destruct (obj_flds_case (o_env o) (ofZ 0)) as (F1 & F2 & F3 & F4 & F5).
  split; [cbn; repeat (constructor; [cbn [In]; intuition discriminate|]); constructor|]. split; [reflexivity|].
  split; [exact F1|]. split; [exact F2|]. split; [exact F3|]. split; [exact F4|]. split; [exact F5|].
  split; [unfold gp_lin; repeat split; reflexivity|]. split; reflexivity.
Qed.

(** a point of one cell of three dimensions with variables *)
Definition fx_mat : material fx := mkMat (ofZ 1) (ofZ 1) (ofZ 1) (ofZ 1) (ofZ 1) (ofZ 1) (ofZ 1) (Some true) (Some false).
Definition fx_env3 : env fx := mkEnv 3 2 2 2 (ofZ 1) (ofZ 1) (ofZ 1) (ofZ 1) (ofZ 1) (ofZ 1) (ofZ 1) (ofZ 1) 0 [fx_mat; fx_mat] (mkArr 1 (PositiveMap.add (key 0) 0 (PositiveMap.empty Z))).
Definition var_gp (e n k : arr fx) : gp fx := mkGp 7 (malloc 7) (Some n) (Some k) e (malloc 6) (malloc 36) (malloc 7) inv_min.
Lemma gp_update_case : sane fx_env3 /\ nvars fx_env3 = 56 /\ exists e n k g', let g := var_gp e n k in gp_ok fx_env3 g /\
  (forall i, 0 <= i < 56 -> aget n i = Some (ofZ 0) /\ aget k i = Some (ofZ 1)) /\ update_gp fx_env3 g = Ok g' /\
  let h := gp_mem fx_env3 (mkWork (malloc 0) (malloc 0) (malloc 0) (EllModel.mkEll 0 0 0 (malloc 0) (malloc 0)) (malloc 0) (malloc 0)) (malloc 0) g (ptr 23) (ptr 24) n k (ofZ 0) in
  a_this home <> 17 /\ h (a_this home) = Some (OS (obj_flds fx_env3 (ofZ 0))) /\ fget (obj_flds fx_env3 (ofZ 0)) "num_int_vars" = Some (Some (VI (nvars fx_env3))) /\
  h 17 = Some (OS (gp_flds g (ptr 23) (ptr 24))) /\ fget (gp_flds g (ptr 23) (ptr 24)) "int_vars_n" = Some (ptr 23) /\ fget (gp_flds g (ptr 23) (ptr 24)) "int_vars_k" = Some (ptr 24) /\
  h 23 = Some (OD n) /\ h 24 = Some (OD k).
Proof.
  assert (S : sane fx_env3).
  { constructor; cbn; try lia. - intros [|[|q]] H; [eexists; eexists; split; reflexivity|eexists; eexists; split; reflexivity|lia].
    - intros q Hq. change (ncells fx_env3) with 1 in Hq. assert (q = 0) by lia. subst q. eexists; reflexivity. }
  split; [exact S|]. split; [reflexivity|].
  destruct (fill_ok (fun _ => ofZ 0 : fx) 56 (malloc 56)) as (n & _ & Ln & Pn & Gn & _); [cbn; lia|].
  destruct (fill_ok (fun _ => ofZ 1 : fx) 56 (malloc 56)) as (k & _ & Lk & Pk & Gk & _); [cbn; lia|].
  destruct (fill_ok (fun _ => ofZ 0 : fx) 6 (malloc 6)) as (e & _ & Le & Pe & _); [cbn; lia|].
  assert (G : gp_ok fx_env3 (var_gp e n k)).
  { constructor; cbn [var_gp g_its g_strain g_stress g_ctan g_err g_n g_k]; try reflexivity; try assumption; [|intros Q; discriminate Q].
    split; split; [exact Ln|exact Pn|exact Lk|exact Pk]. }
  destruct (update_gp_ok fx_env3 (var_gp e n k) S G) as (g' & E & _). exists e, n, k, g'. cbv zeta. split; [exact G|]. split; [auto|]. split; [exact E|].
  split; [cbn; lia|]. repeat split; reflexivity.
Qed.
