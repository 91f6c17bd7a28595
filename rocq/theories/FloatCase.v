(** Cases for the theorems on doubles, C99-C101. *)
From Coq Require Import Reals Lra.
From Flocq Require Import BinarySingleNaN.
From Verif Require Import Base Scalar EllModel EllSpec EllAsm EllOp AssemblyModel AsmPure MicroModel NewtonBase ApiBase ApiRun ApiHist Build ApiSpec ApiProps ApiCases CgPure CgFinal CgProps Classify BinInst FloatSum FloatCg FloatGeo.
Open Scope Z_scope.

(** ** The solver: a diagonal matrix on 2 x 2 nodes with 3, 4, 5, 6 on its diagonal *)
Definition dia_vals (a : Z) : flt := if a mod 9 =? 4 then ofZ (3 + a / 9) else ofZ 0.
Definition dia : ell flt := mkEll 4 4 9 (fun_arr 36 (fun a => a / 9)) (fun_arr 36 dia_vals).
Lemma dia_wf : wf_ell dia (slots CG2D) 1 (nodes CG2D 2 2 1).
Proof.
  change (slots CG2D) with 9. change (nodes CG2D 2 2 1) with 4. constructor; try lia; try reflexivity.
  - exists (fun a => a / 9). split; [apply fun_arr_rep|]. intros a Ha.
    split; [apply Z.div_pos; lia|apply Z.div_lt_upper_bound; lia].
  - exists dia_vals. apply fun_arr_rep.
Qed.
Definition go (sv : solver flt) := run_cg CG2D sv dia 1 2 2 1 (fun_arr 4 (fun _ => ofZ 1)) (fun_arr 4 (fun _ => ofZ 0)).
Definition mill : solver flt := mkSolver 10 0 (odiv (ofZ 1) (ofZ 1000000)) (ofZ 0).
Definition ready : bool :=
  match go mill with
  | Ok (s', x') => (0 <? s_its s') && (s_its s' <? 10) && forallb (fun i => match rd x' i with Ok v => is_finite v | _ => false end) (zrange 0 4)
  | Err _ => false
  end.
Lemma ready_true : ready = true.
Proof. vm_compute. reflexivity. Qed.
(** it needs an iteration, stops before the budget, and what it returns is finite *)
Lemma dia_case : exists m b x vf bf xf (sv sv' : solver flt) x' xf',
  wf_ell m (slots CG2D) 1 (nodes CG2D 2 2 1) /\ rep (e_vals m) (slots CG2D * 1 * (nodes CG2D 2 2 1 * 1)) vf /\
  rep b (nodes CG2D 2 2 1 * 1) bf /\ rep x (nodes CG2D 2 2 1 * 1) xf /\ fin (s_min_tol sv) /\
  run_cg CG2D sv m 1 2 2 1 b x = Ok (sv', x') /\ 0 < s_its sv' < s_max_its sv /\ rep x' (nodes CG2D 2 2 1 * 1) xf' /\
  (gam (S (Z.to_nat (nodes CG2D 2 2 1 * 1))) <= / 2)%R /\ forall i, 0 <= i < nodes CG2D 2 2 1 * 1 -> fin (xf' i).
Proof.
  pose proof ready_true as R0. unfold ready in R0. destruct (go mill) as [[s' x']|] eqn:E; [|discriminate].
  apply Bool.andb_true_iff in R0. destruct R0 as [R0 R2]. apply Bool.andb_true_iff in R0. destruct R0 as [R0 R1].
  apply Z.ltb_lt in R0, R1. rewrite forallb_forall in R2.
  destruct (solve_trace CG2D dia 1 2 2 1 (fun_arr 4 (fun _ => ofZ 1)) (fun_arr 4 (fun _ => ofZ 0)) (fun _ => ofZ 1) (fun _ => ofZ 0) dia_vals dia_wf) with (sv := mill)
    as (xs & rs & ps & ds & sv1 & x1 & _ & E1 & k & _ & Rx & _).
  { apply fun_arr_rep. } { apply fun_arr_rep. } { apply fun_arr_rep. }
  unfold go in E. rewrite E in E1. injection E1 as <- <-.
  exists dia, (fun_arr 4 (fun _ => ofZ 1)), (fun_arr 4 (fun _ => ofZ 0)), dia_vals, (fun _ => ofZ 1), (fun _ => ofZ 0), mill, s', x', (xs k).
  split; [exact dia_wf|]. split; [apply fun_arr_rep|]. split; [apply fun_arr_rep|]. split; [apply fun_arr_rep|].
  split; [vm_compute; reflexivity|]. split; [exact E|]. split; [split; assumption|]. split; [exact Rx|].
  split.
  - change (S (Z.to_nat (nodes CG2D 2 2 1 * 1))) with 5%nat. pose proof (gam_small 5) as G. rewrite uro_val in G.
    assert (Q : (INR 5 = 5)%R) by (simpl; lra). rewrite Q in G. lra.
  - intros i I. change (nodes CG2D 2 2 1 * 1) with 4 in *. specialize (R2 i ltac:(apply in_zrange; lia)).
    rewrite (rep_rd _ _ _ _ Rx I) in R2. exact R2.
Qed.

(** ** The cells: a layer of half the height *)
Definition half : list flt := [ofZ 1; ofZ 1; ofZ 1; odiv (ofZ 1) (ofZ 2); ofZ 0].
Lemma one_ordinary : ordinary (ofZ 1).
Proof.
  destruct (int_exact 1 ltac:(lia)) as [F E]. split; [exact F|]. rewrite E. unfold small, big.
  change 1%R with (Raux.bpow Zaux.radix2 0). split; apply Raux.bpow_le; lia.
Qed.
Lemma half_val : val (odiv (ofZ 1) (ofZ 2)) = (/ 2)%R.
Proof.
  assert (E : B2SF (odiv (ofZ 1) (ofZ 2) : flt) = SpecFloat.S754_finite false 4503599627370496 (-53)) by (vm_compute; reflexivity).
  destruct (odiv (ofZ 1) (ofZ 2)) as [ | | | s m e B]; try discriminate E. injection E as -> -> ->.
  cbn [B2R]. unfold Defs.F2R. cbn. lra.
Qed.
Lemma half_case : exists o : obj flt, (exists fuel orc j ps, construct fuel orc j 2 [3; 3; 1] 1 half [0; 0] ps = Ok o) /\
  ordinary (lget half 0) /\ ordinary (lget half 1) /\ fin (lget half 3) /\ (Rabs (val (lget half 3)) <= big)%R /\
  forall ey, ey = 0 \/ ey = 1 -> let y := mid (val (lget half 1)) 3 ey in (4 * uro * y < Rabs (y - val (lget half 3)))%R /\ ((y < val (lget half 3))%R <-> ey = 0).
Proof.
  assert (A : valid_args 2 3 3 1 1 half [0; 0] (repeat (ofZ 1 : flt) 20)).
  { constructor; [left; reflexivity|lia|lia|right; reflexivity|simpl; lia|exists 0, 0, []; split; [reflexivity|split; left; reflexivity]|rewrite repeat_length; lia]. }
  pose proof (construct_ok fuel40 (fun _ => counting) (flat_junk (ofZ 1)) _ _ _ _ _ _ _ _ A (flat_total _)) as H.
  destruct (construct fuel40 (fun _ => counting) (flat_junk (ofZ 1)) 2 [3; 3; 1] 1 half [0; 0] (repeat (ofZ 1 : flt) 20)) as [o|e] eqn:E;
    [|destruct H as (i & H); elim (counting_good _ _ fuel40_ok H)].
  exists o. split; [eexists _, _, _, _; exact E|]. change (lget half 0) with (ofZ 1 : flt). change (lget half 1) with (ofZ 1 : flt). change (lget half 3) with (odiv (ofZ 1) (ofZ 2) : flt).
  split; [exact one_ordinary|]. split; [exact one_ordinary|]. split; [vm_compute; reflexivity|]. rewrite half_val.
  split. { pose proof one_ordinary as [_ [_ L]]. destruct (int_exact 1 ltac:(lia)) as [_ E1]. rewrite E1 in L. rewrite Rabs_pos_eq; lra. }
  destruct (int_exact 1 ltac:(lia)) as [_ E1]. rewrite E1. unfold mid. rewrite uro_val. change (3 - 1) with 2.
  intros ey [-> | ->]; cbv zeta.
  - replace ((0 + / 2) * 1 / 2 - / 2)%R with (- / 4)%R by lra. rewrite Rabs_Ropp, Rabs_pos_eq by lra. split; [lra|]. split; [reflexivity|lra].
  - replace ((1 + / 2) * 1 / 2 - / 2)%R with (/ 4)%R by lra. rewrite Rabs_pos_eq by lra. split; [lra|]. split; [lra|discriminate].
Qed.
