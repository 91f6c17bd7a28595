(** The trial internal variables of cells that are not plastic are never written. *)
From Coq Require Import ZArith List Bool Lia.
From Verif Require Import Base Scalar EllModel Grid AssemblyModel AsmPure MicroModel OutputModel ApiBase ApiRun ApiHist Build.
Import ListNotations.
Open Scope Z_scope.

Lemma foldM_keep {St A} (P : St -> Prop) (f : St -> A -> res St) l :
  (forall s a s', f s a = Ok s' -> P s -> P s') -> forall s s', foldM f l s = Ok s' -> P s -> P s'.
Proof.
  intros H. induction l as [|a l IH]; intros s s' E Ps; cbn [foldM] in E; [injection E as <-; exact Ps|].
  apply bind_ok in E. destruct E as (s1 & E1 & E2). eauto.
Qed.
Lemma foldM_keep_in {St A} (P : St -> Prop) (f : St -> A -> res St) l :
  (forall s a s', In a l -> f s a = Ok s' -> P s -> P s') -> forall s s', foldM f l s = Ok s' -> P s -> P s'.
Proof.
  induction l as [|a l IH]; intros H s s' E Ps; cbn [foldM] in E; [injection E as <-; exact Ps|].
  apply bind_ok in E. destruct E as (s1 & E1 & E2).
  apply (IH (fun s b s' i => H s b s' (or_intror i)) s1 s' E2). exact (H s a s1 (or_introl eq_refl) E1 Ps).
Qed.
Lemma stores_miss {T} (ws : list (Z * T)) a a' ix : run_stores ws a = Ok a' -> (forall j v, In (j, v) ws -> j <> ix) -> aget a' ix = aget a ix.
Proof.
  intros E H. destruct (run_stores_inv _ _ _ E) as (_ & _ & G). rewrite G. destruct (last_write ws ix) eqn:L; [|reflexivity].
  apply last_write_in in L. now elim (H _ _ L).
Qed.
Ltac peel1 H := match type of H with bind _ _ = Ok _ => apply bind_ok in H; let x := fresh "x" in let E := fresh "E" in destruct H as (x & E & H) end.

Section Untouched.
Context {T : Type} {OT : Ops T}.
Notation arr := (arr T).
Variables (V : env T) (ix : Z) (val : option T).
(** no plastic cell owns the index *)
Definition unowned : Prop := forall e m g i, get_material V e = Ok (m, true) -> 0 <= g < 8 -> 0 <= i < 7 -> ix <> intvar_ix e g i.
Hypothesis U : v_dim V = 3 -> unowned.
Notation at0 v := (aget v ix = val).

Lemma stress_keep : v_dim V = 3 -> forall vold vnew ex ey ez gp eps r, In gp (zrange 0 8) ->
  get_stress3D V vold vnew ex ey ez gp eps = Ok r -> at0 vnew -> at0 (snd r).
Proof.
  intros Hd vold vnew ex ey ez gp eps r Hg E A. apply in_zrange in Hg. unfold get_stress3D in E. peel1 E. destruct x as [m p]. cbn [fst snd] in E.
  destruct p; [|injection E as <-; exact A]. do 3 peel1 E. injection E as <-. cbn [snd]. rewrite (stores_miss _ _ _ ix E3); [exact A|].
  intros j v Hj. apply not_eq_sym. apply in_app_iff in Hj. destruct Hj as [Hj|[Hj|[]]].
  - apply in_map_iff in Hj. destruct Hj as (i & [= <- _] & Hi). apply in_zrange in Hi. apply (U Hd _ m); [exact E0|lia|lia].
  - injection Hj as <- _. apply (U Hd _ m); [exact E0|lia|lia].
Qed.
Lemma pert_keep : v_dim V = 3 -> forall u vold vnew ex ey ez gp r, In gp (zrange 0 8) ->
  ctan_plast_pert V u vold vnew ex ey ez gp = Ok r -> at0 vnew -> at0 (snd r).
Proof.
  intros Hd u vold vnew ex ey ez gp r Hg E A. unfold ctan_plast_pert in E. do 3 peel1 E. injection E as <-. cbn [snd].
  pose proof (stress_keep Hd _ _ _ _ _ _ _ _ Hg E1 A) as A1. revert E2 A1.
  apply (foldM_keep (fun st : list (list T) * arr => at0 (snd st))). intros s a s' E2 A2. peel1 E2. injection E2 as <-. cbn [snd]. eapply (stress_keep Hd); eassumption.
Qed.
Lemma emat_keep : v_dim V = 3 -> forall u vold vnew ex ey ez r, get_elem_mat3D V u vold vnew ex ey ez = Ok r -> at0 vnew -> at0 (snd r).
Proof.
  intros Hd u vold vnew ex ey ez r E A. unfold get_elem_mat3D in E. peel1 E. revert E. 
  intros E. refine (foldM_keep_in (fun st : list T * arr => at0 (snd st)) _ _ _ _ _ E A). intros s a s' Ha E2 A2. peel1 E2. injection E2 as <-. cbn [snd].
  destruct (snd x).
  - eapply (pert_keep Hd); eassumption.
  - injection E1 as <-. exact A2.
Qed.
Lemma erhs_keep : v_dim V = 3 -> forall u vold vnew ex ey ez r, get_elem_rhs3D V u vold vnew ex ey ez = Ok r -> at0 vnew -> at0 (snd r).
Proof.
  intros Hd u vold vnew ex ey ez r E A. unfold get_elem_rhs3D in E.
  refine (foldM_keep_in (fun st : list T * bool * arr => at0 (snd st)) _ _ _ _ _ E A). intros s a s' Ha E2 A2. do 2 peel1 E2. injection E2 as <-. cbn [snd].
  eapply (stress_keep Hd); eassumption.
Qed.
Lemma rhs_keep u vold vnew b r : assembly_rhs V u vold vnew b = Ok r -> at0 vnew -> at0 (snd (fst r)).
Proof.
  intros E A. unfold assembly_rhs in E. do 4 peel1 E. injection E as <-. cbn [fst snd]. clear E0 E2 E3.
  destruct (Z.eqb_spec (v_dim V) 2); [do 2 peel1 E1; injection E1 as <-; exact A|].
  destruct (Z.eqb_spec (v_dim V) 3) as [Hd|]; [|injection E1 as <-; exact A]. do 2 peel1 E1. injection E1 as <-. cbn [snd].
  refine (foldM_keep (fun st : arr * bool * arr => at0 (snd st)) _ _ _ _ _ E A). intros s ((ex, ey), ez) s' E3 A3. do 2 peel1 E3. injection E3 as <-. cbn [snd].
  eapply (erhs_keep Hd); eassumption.
Qed.
Lemma mat_keep u vold vnew A0 r : assembly_mat V u vold vnew A0 = Ok r -> at0 vnew -> at0 (snd r).
Proof.
  intros E A. unfold assembly_mat in E. peel1 E. clear E0.
  destruct (Z.eqb_spec (v_dim V) 2); [do 2 peel1 E; injection E as <-; exact A|].
  destruct (Z.eqb_spec (v_dim V) 3) as [Hd|]; [|injection E as <-; exact A]. do 2 peel1 E. injection E as <-. cbn [snd].
  refine (foldM_keep (fun st : ell T * arr => at0 (snd st)) _ _ _ _ _ E0 A). intros s ((ex, ey), ez) s' E3 A3. do 2 peel1 E3. injection E3 as <-. cbn [snd].
  eapply (emat_keep Hd); eassumption.
Qed.
Lemma ave_keep u vold vnew r : calc_ave_stress V u vold vnew = Ok r -> at0 vnew -> at0 (snd r).
Proof.
  intros E A. unfold calc_ave_stress in E. peel1 E. injection E as <-. cbn [snd].
  destruct (Z.eqb_spec (v_dim V) 2).
  - refine (foldM_keep (fun st : list T * arr => at0 (snd st)) _ _ _ _ _ E0 A). intros s (ex, ey) s' E3 A3. peel1 E3. injection E3 as <-. exact A3.
  - destruct (Z.eqb_spec (v_dim V) 3) as [Hd|]; [|injection E0 as <-; exact A].
    refine (foldM_keep (fun st : list T * arr => at0 (snd st)) _ _ _ _ _ E0 A). intros s ((ex, ey), ez) s' E3 A3. peel1 E3. injection E3 as <-. cbn [snd].
    refine (foldM_keep_in (fun st : list T * arr => at0 (snd st)) _ _ _ _ _ E A3). intros t a t' Ha E4 A4. do 2 peel1 E4. injection E4 as <-. cbn [snd].
    eapply (stress_keep Hd); eassumption.
Qed.
Lemma fields_keep u vold vnew es et r : calc_fields V u vold vnew es et = Ok r -> at0 vnew -> at0 (snd r).
Proof.
  intros E A. unfold calc_fields in E.
  destruct (Z.eqb_spec (v_dim V) 2).
  - refine (foldM_keep (fun st : arr * arr * arr => at0 (snd st)) _ _ _ _ _ E A). intros s (ex, ey) s' E3 A3. do 3 peel1 E3. injection E3 as <-. exact A3.
  - destruct (Z.eqb_spec (v_dim V) 3) as [Hd|]; [|injection E as <-; exact A].
    refine (foldM_keep (fun st : arr * arr * arr => at0 (snd st)) _ _ _ _ _ E A). intros s ((ex, ey), ez) s' E3 A3. do 3 peel1 E3. injection E3 as <-. cbn [snd].
    refine (foldM_keep_in (fun st : list T * list T * arr => at0 (snd st)) _ _ _ _ _ E0 A3). intros t a t' Ha E4 A4. do 2 peel1 E4. injection E4 as <-. cbn [snd].
    eapply (stress_keep Hd); eassumption.
Qed.
Lemma body_keep w r : newton_body V w = Ok r -> at0 (w_vnew w) -> at0 (w_vnew (fst (fst (fst r)))).
Proof.
  intros E A. unfold newton_body in E. peel1 E. pose proof (rhs_keep _ _ _ _ _ E0 A) as A1. destruct x as (((b, nl), vn), er). cbn [fst snd] in A1.
  destruct (oltb er nr_tol); [injection E as <-; exact A1|]. do 4 peel1 E. injection E as <-. cbn [fst w_vnew]. exact (mat_keep _ _ _ _ _ E1 A1).
Qed.
Lemma loop_keep fuel pk : forall c k w r, newton_loop fuel pk V c k w = Ok r -> at0 (w_vnew w) -> at0 (w_vnew (fst (fst (fst r)))).
Proof.
  induction fuel as [|fuel IH]; intros c k w r E A; cbn [newton_loop] in E; [discriminate|]. peel1 E. pose proof (body_keep _ _ E0 A) as A1.
  destruct x as (((w1, nl), er), brk). cbn [fst snd] in A1. destruct brk; [injection E as <-; exact A1|]. peel1 E.
  destruct (_ && _); [|injection E as <-; exact A1]. eauto.
Qed.
Lemma respond_keep fuel pk eps w r : respond fuel pk V eps w = Ok r -> at0 (w_vnew w) -> at0 (w_vnew (fst (fst (fst (fst r))))).
Proof.
  intros E A. unfold respond in E. do 2 peel1 E. pose proof (loop_keep _ _ _ _ _ _ E1 A) as A1. destruct x0 as (((w1, nl), its), er). cbn [fst snd] in A1.
  peel1 E. injection E as <-. cbn [fst set_vnew w_vnew]. exact (ave_keep _ _ _ _ E2 A1).
Qed.
Lemma lin_keep fuel orc w c r : calc_ctan_lin fuel orc V w c = Ok r -> at0 (w_vnew w) -> at0 (w_vnew (fst r)).
Proof.
  intros E A. unfold calc_ctan_lin in E. refine (foldM_keep (fun st : work T * arr => at0 (w_vnew (fst st))) _ _ _ _ _ E A).
  intros s i s' E1 A1. peel1 E1. pose proof (respond_keep _ _ _ _ _ E0 A1) as A2. destruct x as ((((w1, nl), its), er), st). peel1 E1. injection E1 as <-. exact A2.
Qed.
Lemma ctan_keep fuel orc eps s0 w ct its ers r : homog_ctan fuel orc V eps s0 w ct its ers = Ok r -> at0 (w_vnew w) -> at0 (w_vnew (fst (fst (fst r)))).
Proof.
  intros E A. unfold homog_ctan in E. refine (foldM_keep (fun st : work T * arr * Base.arr Z * arr => at0 (w_vnew (fst (fst (fst st))))) _ _ _ _ _ E A).
  intros s i s' E1 A1. destruct s as (((w0, c0), i0), e0). cbn [fst] in A1. peel1 E1. pose proof (respond_keep _ _ _ _ _ E0 A1) as A2. destruct x as ((((w1, nl), it), er), st).
  do 3 peel1 E1. injection E1 as <-. exact A2.
Qed.

(** an entry of the list: no variables yet, or a trial array with the value and a
    committed array with 0 or the value *)
Definition held (g : gp T) : Prop :=
  (g_n g = None /\ g_k g = None) \/
  exists n k, g_n g = Some n /\ g_k g = Some k /\ at0 k /\ (aget n ix = Some (dec 0 1) \/ at0 n).
Hypothesis Hix : 0 <= ix < nvars V.
Lemma upd_get {A} (f : Base.arr A -> Z -> res A) n a a' (g : Z -> res A) : (forall a i, f a i = g i) -> upd_for n f a = Ok a' -> forall i, 0 <= i < n -> exists v, g i = Ok v /\ aget a' i = Some v.
Proof.
  intros Hf E i Hi. unfold upd_for in E.
  assert (G : forall m, 0 <= m -> forall lo a a', foldM (fun a i => v <- f a i ;; wr a i v) (zrange lo (lo + m)) a = Ok a' ->
    (forall j, j < lo \/ lo + m <= j -> aget a' j = aget a j) /\ forall j, lo <= j < lo + m -> exists v, g j = Ok v /\ aget a' j = Some v).
  { intros m Hm. pattern m. apply natlike_ind; [| |exact Hm].
    - intros lo b b' Eb. rewrite Z.add_0_r, zrange_empty in Eb by lia. cbn [foldM] in Eb. injection Eb as <-. split; [reflexivity|lia].
    - intros k Hk IH lo b b' Eb. rewrite zrange_cons in Eb by lia. cbn [foldM] in Eb. replace (lo + Z.succ k) with ((lo + 1) + k) in * by lia. peel1 Eb. peel1 E0. rewrite Hf in E1. destruct (IH _ _ _ Eb) as (F1 & F2).
      apply wr_inv in E0. destruct E0 as (_ & _ & W). split.
      + intros j Hj. rewrite F1 by lia. rewrite W. destruct (Z.eqb_spec j lo); [lia|reflexivity].
      + intros j Hj. destruct (Z.eq_dec j lo) as [->|]; [|apply F2; lia]. exists x0. rewrite F1 by lia. rewrite W, Z.eqb_refl. auto. }
  apply (proj2 (G n ltac:(lia) 0 a a' ltac:(exact E))). lia.
Qed.
Lemma copy_get src dst r : copy_vars V src dst = Ok r -> aget r ix = aget src ix.
Proof. intros E. destruct (upd_get _ _ _ _ (rd src) (fun _ _ => eq_refl) E ix Hix) as (v & E1 & ->). apply rd_ok in E1. now rewrite E1. Qed.

Lemma gp_keep fuel orc c w g r : homog_gp fuel orc V c w g = Ok r -> at0 (w_vnew w) -> held g -> at0 (w_vnew (fst (fst r))) /\ held (snd r).
Proof.
  intros E A G. unfold homog_gp in E. do 2 peel1 E. destruct (_ && _).
  - peel1 E. injection E as <-. cbn [fst snd set_vold w_vnew]. split; [exact A|]. unfold homog_linear in E2. do 5 peel1 E2. injection E2 as <-. exact G.
  - do 2 peel1 E. assert (A1 := respond_keep _ _ _ _ _ E3 A). destruct x2 as ((((w1, nl), it), er), s). cbn [fst] in A1. do 5 peel1 E.
    assert (A2 := ctan_keep _ _ _ _ _ _ _ _ _ E8 A1). destruct x6 as (((w2, ct), its), ers). injection E as <-. cbn [fst snd] in *. split; [exact A2|].
    unfold keep_vars in E5. destruct nl.
    + destruct G as [[Gn Gk]|(n & k & Gn & Gk & Ak & An)]; rewrite Gn in E5.
      * do 2 peel1 E5. injection E5 as <-. right. exists x6, x7. cbn [g_n g_k fst snd]. repeat split; [now rewrite (copy_get _ _ _ E9)|].
        destruct (upd_get _ _ _ _ (fun _ => Ok (dec 0 1)) (fun _ _ => eq_refl) E ix Hix) as (v & [= <-] & ->). now left.
      * rewrite Gk in E5. cbn [of_option bind] in E5. peel1 E5. injection E5 as <-. right. exists n, x6. cbn [g_n g_k fst snd]. repeat split; [now rewrite (copy_get _ _ _ E)|exact An].
    + injection E5 as <-. cbn [fst snd]. exact G.
Qed.
Definition clean (o : obj T) : Prop := o_env o = V /\ at0 (w_vnew (o_work o)) /\ Forall held (o_gps o).
Lemma homogenize_clean fuel orc o o' : homogenize fuel orc o = Ok o' -> clean o -> clean o'.
Proof.
  intros E (Ev & A & F). unfold homogenize in E. rewrite Ev in E. peel1 E. destruct x as (((w, inv), l), j). injection E as <-. unfold clean. cbn [o_env o_work o_gps].
  assert (X : forall l0 st st', Forall held l0 -> foldM (fun (st : work T * option T * list (gp T) * Z) g => let '(w, _, done, j) := st in ' r <- homog_gp fuel (orc j) V (o_ctan o) w g;; let '(w0, inv, g0) := r in Ok (w0, Some inv, done ++ [g0], j + 1)) l0 st = Ok st' ->
    at0 (w_vnew (fst (fst (fst st)))) /\ Forall held (snd (fst st)) -> at0 (w_vnew (fst (fst (fst st')))) /\ Forall held (snd (fst st'))).
  { intros l0. induction l0 as [|g l0 IH]; intros st st' Fl Es P; cbn [foldM] in Es; [injection Es as <-; exact P|]. peel1 Es. apply Forall_cons_iff in Fl. destruct Fl as (Hg & Fl).
    apply (IH _ _ Fl Es). destruct st as (((ws, i), dn), js). cbn [fst snd] in P. destruct P as (P1 & P2). peel1 E. destruct (gp_keep _ _ _ _ _ _ E1 P1 Hg) as (Q1 & Q2). destruct x0 as ((w1, i1), g1). injection E as <-. cbn [fst snd] in *.
    split; [exact Q1|]. apply Forall_app. split; [exact P2|]. now constructor. }
  specialize (X _ _ _ F E0). cbn [fst snd] in X. specialize (X (conj A (Forall_nil _))). split; [reflexivity|exact X].
Qed.
Definition settled (g : gp T) : Prop := match g_n g with Some n => at0 n | None => True end.
Lemma update_clean o o' : update_vars o = Ok o' -> clean o -> clean o' /\ Forall settled (o_gps o').
Proof.
  intros E (Ev & A & F). unfold update_vars in E. rewrite Ev in E. peel1 E. injection E as <-. unfold clean. cbn [set_gps o_env o_work o_gps].
  assert (X : Forall (fun g => held g /\ settled g) x).
  { revert x E0. induction (o_gps o) as [|g l IH]; intros x E0; cbn [mapM] in E0; [injection E0 as <-; constructor|]. do 2 peel1 E0. injection E0 as <-. apply Forall_cons_iff in F. destruct F as (Hg & F).
    constructor; [|exact (IH F _ E1)]. unfold update_gp in E. destruct Hg as [[Gn Gk]|(n & k & Gn & Gk & Ak & An)]; rewrite Gn in E.
    - injection E as <-. unfold settled. rewrite Gn. split; [now left|exact I].
    - rewrite Gk in E. cbn [of_option bind] in E. apply bind_ok in E. destruct E as (z & Ez & E). injection E as <-. unfold settled, held. cbn [g_n g_k]. pose proof (copy_get _ _ _ Ez) as C. split; [right|now rewrite C].
      exists z, k. rewrite C. auto. }
  split; [split; [exact Ev|split; [exact A|]]|]; revert X; apply Forall_impl; tauto.
Qed.
Lemma set_clean id eps : forall l l', set_strain V id eps l = Ok l' -> Forall held l -> Forall held l'.
Proof.
  induction l as [|g l IH]; intros l' E F; cbn [set_strain] in E.
  - peel1 E. injection E as <-. unfold new_gp in E0. peel1 E0. injection E0 as <-. constructor; [|constructor]. now left.
  - apply Forall_cons_iff in F. destruct F as (Hg & F). destruct (g_id g =? id).
    + peel1 E. injection E as <-. constructor; assumption.
    + peel1 E. injection E as <-. constructor; eauto.
Qed.
Lemma output_clean fuel pk t id o fs r : output fuel pk t id o fs = Ok r -> clean o -> clean (fst r).
Proof.
  intros E (Ev & A & F). unfold output in E. destruct (lookup id (o_gps o)) as [g|]; [|injection E as <-; repeat split; assumption].
  rewrite Ev in E. do 6 peel1 E. injection E as <-. unfold clean, with_work. cbn [fst o_env o_work o_gps set_vnew w_vnew]. split; [exact Ev|]. split; [|exact F].
  exact (fields_keep _ _ _ _ _ _ E4 (loop_keep _ _ _ _ _ _ E3 A)).
Qed.
Lemma step_clean c s r : step c s = Ok r -> clean (fst s) -> clean (fst (fst r)).
Proof.
  destruct s as (o, fs). cbn [fst]. intros E C. destruct c; cbn [step] in E.
  - destruct (_ <? _); [discriminate|]. peel1 E. injection E as <-. cbn [fst]. destruct C as (Ev & A & F). rewrite Ev in E0. repeat split; [exact Ev|exact A|]. exact (set_clean _ _ _ _ E0 F).
  - peel1 E. injection E as <-. exact C.
  - peel1 E. injection E as <-. exact C.
  - injection E as <-. exact C.
  - peel1 E. injection E as <-. exact (homogenize_clean _ _ _ _ E0 C).
  - peel1 E. injection E as <-. exact (proj1 (update_clean _ _ E0 C)).
  - peel1 E. injection E as <-. exact (output_clean _ _ _ _ _ _ _ E0 C).
  - peel1 E. injection E as <-. unfold write_info_files in E0. destruct (if o_header o then _ else _). do 3 peel1 E0. injection E0 as <-. cbn [fst]. destruct C as (Ev & A & F). repeat split; assumption.
Qed.
Lemma run_clean : forall cs s r, run cs s = Ok r -> clean (fst s) -> clean (fst (fst r)).
Proof.
  induction cs as [|c cs IH]; intros s r E C; cbn [run] in E; [injection E as <-; exact C|]. do 2 peel1 E. injection E as <-. cbn [fst]. exact (IH _ _ E1 (step_clean _ _ _ E0 C)).
Qed.
End Untouched.

Section Never.
Context {T : Type} {OT : Ops T}.
Lemma plastic_unowned (V : env T) c g i : sane V -> 0 <= c < ncells V -> plastic_at V c = false -> 0 <= g < 8 -> 0 <= i < 7 -> unowned V (intvar_ix c g i).
Proof.
  intros S Hc P Hg Hi e m g' i' E Hg' Hi' X. unfold intvar_ix in X. assert (e = c) as -> by lia. rewrite (get_material_ok V c S Hc), P in E. discriminate.
Qed.

(** the entry of a cell that is not plastic holds what malloc returned, in the trial
    buffer, in every kept trial state and, from the first update_vars on, in every
    committed state *)
Theorem never_written fuel orc j dim nx ny nz mtype mp mt ps (o0 : obj T) : valid_args dim nx ny nz mtype mp mt ps -> total_junk j ->
  construct fuel orc j dim [nx; ny; nz] mtype mp mt ps = Ok o0 ->
  forall cs fs0 o fs rs, run cs (o0, fs0) = Ok (o, fs, rs) ->
  forall c g i, 0 <= c < ncells (o_env o0) -> plastic_at (o_env o0) c = false -> 0 <= g < 8 -> 0 <= i < 7 ->
  aget (w_vnew (o_work o)) (intvar_ix c g i) = j_vnew j (intvar_ix c g i) /\
  (forall p, In p (o_gps o) -> (g_n p = None /\ g_k p = None) \/
    exists n k, g_n p = Some n /\ g_k p = Some k /\ aget k (intvar_ix c g i) = j_vnew j (intvar_ix c g i) /\
      (aget n (intvar_ix c g i) = Some (dec 0 1) \/ aget n (intvar_ix c g i) = j_vnew j (intvar_ix c g i))) /\
  (forall o' fs' r, step UpdateVars (o, fs) = Ok (o', fs', r) -> forall p n, In p (o_gps o') -> g_n p = Some n ->
    aget n (intvar_ix c g i) = j_vnew j (intvar_ix c g i)).
Proof.
  intros VA J E cs fs0 o fs rs R c g i Hc P Hg Hi. pose proof (construct_ok fuel orc j dim nx ny nz mtype mp mt ps VA J) as H. rewrite E in H.
  destruct H as (F & _ & _ & _ & _ & A & _ & Ec). set (V := o_env o0) in *. set (ix := intvar_ix c g i) in *.
  pose proof (ok_sane _ (proj1 F)) as S. fold V in S.
  assert (Hix : 0 <= ix < nvars V).
  { unfold nvars, num_int_vars. change (nelem (v_dim V) (v_nx V) (v_ny V) (v_nz V)) with (ncells V). unfold ix, intvar_ix. lia. }
  assert (U : v_dim V = 3 -> unowned V ix) by (intros _; exact (plastic_unowned V c g i S Hc P Hg Hi)).
  assert (C0 : clean V ix (j_vnew j ix) o0).
  { split; [reflexivity|]. split; [|rewrite (proj2 F); constructor].
    apply (lin_keep V ix _ U _ _ _ _ _ Ec). cbn [w_vnew]. apply alloc_get. exact Hix. }
  pose proof (run_clean V ix _ U Hix _ _ _ R C0) as C. cbn [fst] in C. split; [exact (proj1 (proj2 C))|]. split.
  - intros p Hp. exact (proj1 (Forall_forall _ _) (proj2 (proj2 C)) p Hp).
  - intros o' fs' r Es p n Hp Hn. cbn [step] in Es. peel1 Es. injection Es as <- <- <-.
    pose proof (proj2 (update_clean V ix _ Hix _ _ E0 C)) as Q. pose proof (proj1 (Forall_forall _ _) Q p Hp) as Qp. unfold settled in Qp. now rewrite Hn in Qp.
Qed.
End Never.
