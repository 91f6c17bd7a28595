(** The text of calc_ctan_lin on a newly built object, and memories on which the texts of src/homogenize.cpp run. *)
From Coq Require Import String FMapPositive.
From Verif Require Import Base Scalar EllSpec EllInit MicroModel Clite CliteRules EllAst AsmAst HomAst Sym SymStep Grid EllModel AssemblyModel
  AsmCalls AsmPure NewtonBase ApiBase ApiRun ApiHist Build AsmLit AsmLit2 AsmLit9 AsmLit14 AsmLit15 AsmLit16 AsmLit17 AsmLit18 AsmLit22 FixInst HomLit HomLit2 HomLit3.
Local Open Scope string_scope.
Local Open Scope Z_scope.

Section Built.
Context {T : Type} `{OT : Ops T}.
Notation obj := (@Clite.obj T).
Notation val := (@val T).

Theorem built_text fuel (j : junk T) dim nx ny nz mtype mp mt ps (o : MicroModel.obj T) : dec 0 1 = (ofZ 0 : T) ->
  valid_args dim nx ny nz mtype mp mt ps -> total_junk j ->
  construct fuel (fun _ => alone) j dim [nx; ny; nz] mtype mp mt ps = Ok o ->
  exists A, (if dim =? 2 then ell_init_2D 2 nx ny else ell_init_3D 3 nx ny nz) = Ok A /\
  forall P bc bv cl k h fs, NoDup (whole_addrs P bc bv ++ [cl])%list -> Forall (fun a => a < k) (whole_addrs P bc bv ++ [cl])%list ->
  h (a_this P) = Some (OS fs) -> fget fs "ctan_lin" = Some (ptr cl) -> blank_from h k ->
  whole (o_env o) P bc bv (mkWork (MicroModel.alloc (j_u j) (ndofs (o_env o))) (malloc (ndofs (o_env o))) (malloc (ndofs (o_env o))) A
    (MicroModel.alloc (j_vold j) (nvars (o_env o))) (MicroModel.alloc (j_vnew j) (nvars (o_env o)))) h ->
  h cl = Some (OD (malloc 36)) ->
  exists st, calls hom_prog "calc_ctan_lin" [VP (a_this P) 0] h k (Ok (st, Nrm)) /\
    whole (o_env o) P bc bv (o_work o) (mem st) /\ mem st cl = Some (OD (o_ctan o)) /\
    frame h (mem st) k (lin_touch P bv cl) /\ blank_from (mem st) (nxt st) /\ k <= nxt st.
Proof.
  intros Z0 VA TJ E. pose proof (construct_ok fuel (fun _ => alone) j dim nx ny nz mtype mp mt ps VA TJ) as X. rewrite E in X.
  destruct X as (_ & (tol & _ & EV) & _ & _ & _ & A & EA & EC). exists A. split; [exact EA|].
  intros P bc bv cl k h fs ND FK HT HC BL WH HCL.
  assert (DD : v_dim (o_env o) = 2 \/ v_dim (o_env o) = 3).
  { rewrite (eo_dim _ _ _ _ _ _ _ _ _ _ EV). destruct VA as [[D|(D & _)] _ _ _ _ _ _]; auto. }
  exact (ctan_lin_text (o_env o) P bc bv cl k h fs DD Z0 ND FK HT HC fuel _ _ _ _ BL WH HCL EC).
Qed.

Ltac nodup := cbn [map fst In app]; repeat (constructor; [cbn [In]; intuition discriminate|]); constructor.
(** the object at 0 with the fields of the linear answer, the tangent at 16 and a strain at 17 *)
Definition lin_flds (V : env T) (m : T) : list (string * option val) :=
  (this_flds (v_dim V) (v_type V) V (ptr 1) (ptr 2) (ptr 3) (ptr 4) (ptr 5) (ptr 6) (ptr 7) (ptr 8) (ptr 9) (ptr 10) ++
   [("ctan_lin", ptr 16); ("inv_max", Some (VD m)); ("inv_tol", Some (VD (v_inv_tol V)))])%list.
Definition lin_mem (V : env T) (w : MicroModel.work T) (c e : arr T) (m : T) (a : Z) : option obj :=
  if a =? 0 then Some (OS (lin_flds V m)) else if a =? 16 then Some (OD c) else if a =? 17 then Some (OD e)
  else home_whole V w (OI (malloc 1)) (OI (malloc 1)) (OD (malloc 1)) a.
Lemma lin_mem_case V w c e m : let h := lin_mem V w c e m in
  whole V home 14 15 w h /\ h 0 = Some (OS (lin_flds V m)) /\ this_in (lin_flds V m) V home /\ h 16 = Some (OD c) /\ h 17 = Some (OD e) /\ blank_from h 18 /\
  fget (lin_flds V m) "ctan_lin" = Some (ptr 16) /\ fget (lin_flds V m) "inv_max" = Some (Some (VD m)) /\ fget (lin_flds V m) "inv_tol" = Some (Some (VD (v_inv_tol V))) /\
  NoDup (whole_addrs home 14 15 ++ [16])%list /\ Forall (fun a => a < 18) (whole_addrs home 14 15 ++ [16])%list.
Proof.
  assert (TI : this_in (lin_flds V m) V home).
  { intros f x I. apply this_fget; [nodup|]. unfold lin_flds. apply in_or_app. left. exact I. }
  cbv zeta. split.
  { destruct (home_whole_case V w (OI (malloc 1)) (OI (malloc 1)) (OD (malloc 1))) as (((fs & l2 & B0 & B1 & B2 & B3 & B4 & B5) & MA & HB & HD) & _).
    split; [|split; [split; [|split]|split]]; try reflexivity. exists (lin_flds V m), l2. split; [reflexivity|]. split; [exact TI|]. split; [exact B2|]. split; [exact B3|]. split; [exact B4|exact B5]. }
  split; [reflexivity|]. split; [exact TI|]. split; [reflexivity|]. split; [reflexivity|]. split.
  { intros a I. unfold lin_mem, home_whole, home_mem. repeat (match goal with |- context[Z.eqb a ?n] => destruct (Z.eqb_spec a n); [lia|] end). reflexivity. }
  repeat (split; [reflexivity|]). cbn. split; repeat (constructor; [first [lia|cbn [In]; intuition discriminate]|]); constructor.
Qed.
End Built.

(** one cell of two dimensions, built in fixed point *)
(** an entry of its tangent, in millionths *)
Lemma fx_plane_runs : match construct 5 (fun _ => alone) ex_junk 2 [2; 2; 1] 0 ex_mp [0; 0] ex_ps with Ok o => option_map micro (aget (o_ctan o) 1) | Err _ => None end = Some 115384615.
Proof. vmr. Qed.
Lemma fx_zero : dec 0 1 = (ofZ 0 : fx).
Proof. reflexivity. Qed.
Lemma built_case : dec 0 1 = (ofZ 0 : fx) /\ valid_args 2 2 2 1 0 ex_mp [0; 0] ex_ps /\ total_junk ex_junk /\
  exists o, construct 5 (fun _ => alone) ex_junk 2 [2; 2; 1] 0 ex_mp [0; 0] ex_ps = Ok o /\ option_map micro (aget (o_ctan o) 1) = Some 115384615 /\
  forall w, let h := lin_mem (o_env o) w (malloc 36) (malloc 6) (ofZ 0) in
    whole (o_env o) home 14 15 w h /\ h 0 = Some (OS (lin_flds (o_env o) (ofZ 0))) /\ fget (lin_flds (o_env o) (ofZ 0)) "ctan_lin" = Some (ptr 16) /\
    h 16 = Some (OD (malloc 36)) /\ blank_from h 18 /\
    NoDup (whole_addrs home 14 15 ++ [16])%list /\ Forall (fun a => a < 18) (whole_addrs home 14 15 ++ [16])%list.
Proof.
  split; [exact fx_zero|]. split.
  { split; [now left|lia|lia|now left|cbn; auto| |cbn; repeat constructor]. exists 0, 0, []. split; [reflexivity|]. split; unfold mat_type_ok; cbn; auto. }
  split; [constructor; [intros i; exists (ofZ 0); reflexivity|intros i; exists (ofZ 0); reflexivity|intros i; exists (ofZ 0); reflexivity|exists (fd 1 5); reflexivity]|]. pose proof fx_plane_runs as R.
  destruct (construct 5 (fun _ => alone) ex_junk 2 [2; 2; 1] 0 ex_mp [0; 0] ex_ps) as [o|]; [|discriminate]. exists o. split; [reflexivity|]. split; [exact R|].
  intros w. cbv zeta. destruct (lin_mem_case (o_env o) w (malloc 36) (malloc 6) (ofZ 0)) as (W & H0 & _ & H16 & _ & BL & F & _ & _ & N & K).
  split; [exact W|]. split; [exact H0|]. split; [exact F|]. split; [exact H16|]. split; [exact BL|]. split; [exact N|exact K].
Qed.

(** is_linear on that object, at a strain below and at one beyond the tolerance *)
Definition strain3 (z : Z) : arr fx := mkArr 3 (PositiveMap.add (key 0) (fd z 8) (PositiveMap.add (key 1) (ofZ 0) (PositiveMap.add (key 2) (ofZ 0) (PositiveMap.empty fx)))).
Lemma fx_linear : match construct 5 (fun _ => alone) ex_junk 2 [2; 2; 1] 0 ex_mp [0; 0] ex_ps with
  | Ok o => match is_linear (o_env o) (o_ctan o) (strain3 1) (ofZ 0), is_linear (o_env o) (o_ctan o) (strain3 1000) (ofZ 0) with
            | Ok (b1, m1), Ok (b2, m2) => b1 = true /\ b2 = false /\ micro m1 = 3 /\ micro m2 = 3846 | _, _ => False end
  | Err _ => False end.
Proof. vm_compute. repeat split. Qed.
Lemma linear_case : exists o b1 m1 b2 m2, v_dim (o_env o) = 2 /\ is_linear (o_env o) (o_ctan o) (strain3 1) (ofZ 0) = Ok (b1, m1) /\
    is_linear (o_env o) (o_ctan o) (strain3 1000) (ofZ 0) = Ok (b2, m2) /\ b1 = true /\ b2 = false /\
  forall w e, let h := lin_mem (o_env o) w (o_ctan o) e (ofZ 0) in let fs := lin_flds (o_env o) (ofZ 0) in
    h (a_this home) = Some (OS fs) /\ this_in fs (o_env o) home /\ h 16 = Some (OD (o_ctan o)) /\ h 17 = Some (OD e) /\
    fget fs "ctan_lin" = Some (ptr 16) /\ fget fs "inv_max" = Some (Some (VD (ofZ 0))) /\ fget fs "inv_tol" = Some (Some (VD (v_inv_tol (o_env o)))).
Proof.
  pose proof fx_linear as R. destruct (construct 5 (fun _ => alone) ex_junk 2 [2; 2; 1] 0 ex_mp [0; 0] ex_ps) as [o|] eqn:E; [|contradiction].
  destruct (is_linear (o_env o) (o_ctan o) (strain3 1) (ofZ 0)) as [(b1 & m1)|] eqn:E1; [|contradiction].
  destruct (is_linear (o_env o) (o_ctan o) (strain3 1000) (ofZ 0)) as [(b2 & m2)|] eqn:E2; [|contradiction]. destruct R as (R1 & R2 & _).
  exists o, b1, m1, b2, m2. split.
  { assert (X : match construct 5 (fun _ => alone) ex_junk 2 [2; 2; 1] 0 ex_mp [0; 0] ex_ps with Ok o => v_dim (o_env o) | Err _ => 0 end = 2) by vmr. rewrite E in X. exact X. }
  split; [exact E1|]. split; [exact E2|]. split; [exact R1|]. split; [exact R2|].
  intros w e. cbv zeta. destruct (lin_mem_case (o_env o) w (o_ctan o) e (ofZ 0)) as (_ & H0 & TI & H16 & H17 & _ & F & F1 & F2 & _).
  split; [exact H0|]. split; [exact TI|]. split; [exact H16|]. split; [exact H17|]. split; [exact F|]. split; [exact F1|exact F2].
Qed.
