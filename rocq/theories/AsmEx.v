(** Concrete micro-structures meeting the hypotheses of the assembly theorems. *)
From Coq Require Import Reals Lra ZifyBool.
From Verif Require Import Base Scalar EllSpec EllModel EllFinal Grid CgProps AssemblyModel AsmPure AsmBnd AsmRun FemPd.
Open Scope Z_scope.
Open Scope R_scope.

Definition elas (E nu Ka Sy : R) (p : bool) : material R :=
  mkMat E nu (E / (3 * (1 - 2 * nu))) (E / (2 * (1 + nu))) (nu * E / ((1 + nu) * (1 - 2 * nu))) Ka Sy (Some p) (Some false).
(** a box of cells whose two materials alternate *)
Definition box (d nx ny nz : Z) (lx ly lz : R) (m0 m1 : material R) : env R :=
  mkEnv d nx ny nz lx ly lz (lx / IZR (nx - 1)) (ly / IZR (ny - 1)) (lz / IZR (nz - 1)) 0 0 0
    [m0; m1] (fun_arr ((nx - 1) * (ny - 1) * (if (d =? 2)%Z then 1 else nz - 1)) (fun e => e mod 2)%Z).

Definition goodbox (d nx ny nz : Z) : Prop := ((d = 2 /\ nz = 1 \/ d = 3 /\ 2 <= nz) /\ 2 <= nx /\ 2 <= ny)%Z.
Section Box.
Variables (d nx ny nz : Z) (lx ly lz : R) (m0 m1 : material R).
Let V := box d nx ny nz lx ly lz m0 m1.
Hypothesis Hb : goodbox d nx ny nz.

Lemma box_cells : ncells V = ((nx - 1) * (ny - 1) * (if (d =? 2)%Z then 1 else nz - 1))%Z.
Proof. unfold ncells, nelem, V, box; cbn [v_dim v_nx v_ny v_nz]. destruct (d =? 2)%Z; [|reflexivity]. now rewrite Z.mul_1_r. Qed.
Lemma box_sane p0 p1 : m_plast m0 = Some p0 -> m_plast m1 = Some p1 -> sane V.
Proof.
  intros P0 P1. destruct Hb as (Hd & Hx & Hy). constructor.
  - exact Hd.
  - exact Hx.
  - exact Hy.
  - now left.
  - intros [|[|k]] Hk; [exists m0, p0|exists m1, p1|lia]; now split.
  - intros e He. rewrite box_cells in He. eexists. unfold V, box; cbn [v_etype]. now apply fun_arr_rep.
Qed.
Lemma box_geom : 0 < lx -> 0 < ly -> 0 < lz -> geom V.
Proof.
  intros Hx Hy Hz. destruct Hb as (Hd & Bx & By).
  assert (0 < IZR (nx - 1)) by (apply (IZR_lt 0); lia). assert (0 < IZR (ny - 1)) by (apply (IZR_lt 0); lia).
  assert (Z3 : d = 3%Z -> 0 < IZR (nz - 1)) by (intros; apply (IZR_lt 0); lia).
  constructor; unfold V, box; cbn [v_lx v_ly v_lz v_dx v_dy v_dz v_nx v_ny v_nz v_dim]; intros.
  - field. lra.
  - field. lra.
  - specialize (Z3 H1). field. lra.
  - now apply Rdiv_lt_0_compat.
  - now apply Rdiv_lt_0_compat.
  - apply Rdiv_lt_0_compat; auto.
Qed.
Lemma box_mat e : (0 <= e < ncells V)%Z -> mat_at V e = if (e mod 2 =? 0)%Z then m0 else m1.
Proof.
  intros He. rewrite box_cells in He. unfold mat_at, V, box; cbn [v_etype v_mats].
  rewrite (proj2 (fun_arr_rep _ (fun e => e mod 2)%Z) e He). destruct (e mod 2)%Z eqn:E; reflexivity.
Qed.
Lemma box_mat_in e : (0 <= e < ncells V)%Z -> mat_at V e = m0 \/ mat_at V e = m1.
Proof. intros He. rewrite box_mat by assumption. destruct (_ =? _)%Z; auto. Qed.
Lemma box_plastic e p : m_plast m0 = Some p -> m_plast m1 = Some p -> (0 <= e < ncells V)%Z -> plastic_at V e = p.
Proof. intros P0 P1 He. unfold plastic_at. destruct (box_mat_in e He) as [-> | ->]; [rewrite P0|rewrite P1]; reflexivity. Qed.
Lemma box_adm : admissible m0 -> admissible m1 -> adm V.
Proof. intros A0 A1 e He. destruct (box_mat_in e He) as [-> | ->]; assumption. Qed.
End Box.

Lemma elas_adm E nu Ka Sy p : 0 < E -> -1 < nu < 1 / 2 -> admissible (elas E nu Ka Sy p).
Proof. intros HE Hn. constructor; unfold elas; cbn [m_E m_nu m_k m_mu m_lambda]; try reflexivity; lra. Qed.
