(** output, write_info_files and the wrapper. *)
From Coq Require Import String ZifyBool.
From Verif Require Import Base Scalar EllSpec EllInit EllModel EllAsm EllFinal Grid AssemblyModel AsmPure AsmRun MicroModel OutputModel NewtonBase FieldsBase ApiBase ApiRun ApiHist ApiExact Build ApiSpec ApiProps VtuProps VtuData.
Open Scope list_scope.
Open Scope Z_scope.

Section Out.
Context {T : Type} `{OT : Ops T}.
Implicit Types (V : env T) (o : obj T) (cs : list (call T)) (g : gp T).

(** ** output *)
(** o' is o after the solve of output for the point g: Newton from the committed variables
    at the displacement of the stored strain, then the cell fields *)
Definition output_state (fuel : nat) (pk : peek) o g o' : Prop :=
  exists vo u w nl it er, 
    (forall i, 0 <= i < nvars (o_env o) -> aget vo i = committed (o_env o) g i) /\
    set_displ (o_env o) (map (oval (g_strain g)) (zrange 0 (nvoi (o_env o)))) (w_u (o_work o)) = Ok u /\
    newton fuel pk (o_env o) (set_u (set_vold (o_work o) vo) u) = Ok (w, nl, it, er) /\
    o_env o' = o_env o /\ w_u (o_work o') = w_u w /\ w_b (o_work o') = w_b w /\ w_vold (o_work o') = vo /\
    calc_fields (o_env o) (w_u w) vo (w_vnew w) (o_estrain o) (o_estress o) = Ok (o_estrain o', o_estress o', w_vnew (o_work o')).

Lemma output_step o0 cs o fs fuel pk t id g o' fs' r : is_object o0 -> reaches o0 cs o fs -> lookup id (o_gps o) = Some g ->
  step (Output fuel pk t id) (o, fs) = Ok (o', fs', r) ->
  output_state fuel pk o g o' /\ exists f, write_vtu o' = Ok f /\
    fs' = mkFiles (f_mats fs) (f_conv fs) (f_esc fs) (f_vars fs) ((id, t, f) :: f_vtu fs).
Proof.
  intros O R L E. destruct (reach_inv o0 cs o fs O R) as (K & _). pose proof (ok_sane o K) as S. destruct (ok_work o K) as (W & Fo & Fn).
  cbn [step] in E. apply bind_ok in E. destruct E as (q & E & Eq). injection Eq as -> <-. unfold output in E. rewrite L in E.
  destruct (lookup_ok o id g K L) as (Gg & _).
  destruct (load_ok (o_env o) (g_n g) (w_vold (o_work o)) S (full_alen _ _ Fo)) as (vo & Eo & Fo' & Co).
  { intros v Ev. pose proof (go_vars _ g Gg) as Gv. rewrite Ev in Gv. destruct (g_k g); [tauto|contradiction]. }
  rewrite Eo in E. cbn [bind] in E. rewrite (rdl_ok _ _ (go_e _ g Gg)) in E. cbn [bind] in E.
  apply bind_ok in E. destruct E as (u & Eu & E). apply bind_ok in E. destruct E as ((((w & nl) & it) & er) & En & E).
  cbn [fst snd] in E. apply bind_ok in E. destruct E as (((es & et) & vn) & Ef & E). cbn [fst snd] in E.
  apply bind_ok in E. destruct E as (f & Ew & E). injection E as <- <-.
  assert (Fu : full u (ndofs (o_env o))). { destruct (displ_ok (o_env o) (map (oval (g_strain g)) (zrange 0 (nvoi (o_env o)))) _ S (wk_u _ _ W)) as (u2 & Eu2 & Fu2). congruence. }
  assert (Ov : w_vold w = vo).
  { assert (W1 : wfull (o_env o) (set_u (set_vold (o_work o) vo) u)).
    { split; [|split; assumption]. destruct W as [A1 A2 A3 A4 A5 A6]. constructor; try assumption. cbn.
      intros e q' i He Hq Hi _. apply (proj2 Fo'). rewrite nvars_eq. unfold intvar_ix. lia. }
    destruct (newton_wfull _ _ _ _ _ S W1 En) as (_ & _ & Ov). exact Ov. }
  rewrite Ov in Ef. split; [|exists f; split; [exact Ew|reflexivity]].
  exists vo, u, w, nl, it, er. split; [exact Co|]. split; [exact Eu|]. split; [exact En|]. cbn. auto.
Qed.

(** two corners of a cell are different nodes *)
Lemma corners_valid nx ny nz ex ey ez c : 0 <= ex < nx - 1 -> 0 <= ey < ny - 1 -> 0 <= ez < nz - 1 -> 0 <= c < 8 ->
  0 <= node nx ny (ex + cor_x c) (ey + cor_y c) (ez + cor_z c) < nx * ny * nz.
Proof.
  intros Hx Hy Hz Hc. assert (Cx : 0 <= cor_x c <= 1) by (unfold cor_x; destruct orb; lia). assert (Cy : 0 <= cor_y c <= 1) by (unfold cor_y; destruct orb; lia).
  assert (Cz : 0 <= cor_z c <= 1) by (unfold cor_z; split; [apply Z.div_pos; lia|apply Z.lt_succ_r, Z.div_lt_upper_bound; lia]).
  unfold node. generalize dependent (cor_x c). generalize dependent (cor_y c). generalize dependent (cor_z c). intros. 
  assert (0 <= ey + z0 + ny * (ez + z) < ny * nz) by nia. nia.
Qed.
Lemma corners_distinct nx ny nz ex ey ez c c' : 0 <= ex < nx - 1 -> 0 <= ey < ny - 1 -> 0 <= ez < nz - 1 -> 0 <= c < 8 -> 0 <= c' < 8 -> c <> c' ->
  node nx ny (ex + cor_x c) (ey + cor_y c) (ez + cor_z c) <> node nx ny (ex + cor_x c') (ey + cor_y c') (ez + cor_z c').
Proof.
  intros Hx Hy Hz Hc Hc' N E.
  assert (C : forall a, 0 <= a < 8 -> 0 <= cor_x a <= 1 /\ 0 <= cor_y a <= 1 /\ 0 <= cor_z a <= 1).
  { intros a Ha. unfold cor_x, cor_y, cor_z. split; [destruct orb; lia|]. split; [destruct orb; lia|]. split; [apply Z.div_pos; lia|apply Z.lt_succ_r, Z.div_lt_upper_bound; lia]. }
  assert (I : cor_x c = cor_x c' /\ cor_y c = cor_y c' /\ cor_z c = cor_z c').
  { unfold node in E. destruct (C c Hc) as (X1 & Y1 & Z1). destruct (C c' Hc') as (X2 & Y2 & Z2). clear C N. 
    revert E X1 Y1 Z1 X2 Y2 Z2. generalize (cor_x c), (cor_y c), (cor_z c), (cor_x c'), (cor_y c'), (cor_z c'). intros a b d a' b' d' E X1 Y1 Z1 X2 Y2 Z2.
    assert (E1 : ey + b + ny * (ez + d) = ey + b' + ny * (ez + d')) by nia. assert (a = a') by nia. assert (d = d') by nia. split; [assumption|]. split; nia. }
  clear C E. destruct I as (I1 & I2 & I3). apply N. clear N. unfold cor_x, cor_y, cor_z in *.
  pose proof (Z.div_mod c 4 ltac:(lia)) as D1. pose proof (Z.div_mod c' 4 ltac:(lia)) as D2. pose proof (Z.mod_pos_bound c 4 ltac:(lia)) as M1. pose proof (Z.mod_pos_bound c' 4 ltac:(lia)) as M2.
  generalize dependent (c mod 4). generalize dependent (c' mod 4). generalize dependent (c / 4). generalize dependent (c' / 4). intros.
  destruct (Z.eqb_spec z2 1), (Z.eqb_spec z2 2), (Z.eqb_spec z2 3), (Z.eqb_spec z1 1), (Z.eqb_spec z1 2), (Z.eqb_spec z1 3); cbn in I1, I2; lia.
Qed.

(** ** The wrapper *)
Lemma wrapper_null (c : call T) ws fs : wrun (WCall c :: ws) (None, fs) = Err NullDeref.
Proof. reflexivity. Qed.
Lemma wrapper_app (a b : list (wcall T)) s : wrun (a ++ b) s = ' r <- wrun a s ;; ' q <- wrun b (fst r) ;; Ok (fst q, snd r ++ snd q).
Proof.
  revert s. induction a as [|c a IH]; intros s; cbn [app wrun bind].
  - cbn [fst snd app]. destruct (wrun b s) as [((s' & f) & q)|e]; reflexivity.
  - destruct (wstep c s) as [(s1 & r1)|e]; cbn [bind fst snd]; [|reflexivity]. rewrite IH. destruct (wrun a s1) as [(s2 & r2)|e]; cbn [bind fst snd]; [|reflexivity].
    destruct (wrun b s2) as [(s3 & r3)|e]; reflexivity.
Qed.
(** the calls on the object behind the pointer *)
Lemma wrapper_calls cs o fs : wrun (map WCall cs) (Some o, fs) = ' r <- run cs (o, fs) ;; Ok (Some (fst (fst r)), snd (fst r), snd r).
Proof.
  revert o fs. induction cs as [|c cs IH]; intros o fs; [reflexivity|]. cbn [map wrun wstep run].
  destruct (step c (o, fs)) as [((o1 & fs1) & r1)|e]; cbn [bind fst snd]; [|reflexivity]. rewrite IH. destruct (run cs (o1, fs1)) as [((o2 & fs2) & r2)|e]; reflexivity.
Qed.
Lemma wrapper_object a fuel orc j dim size mtype mp mt ps cs s s1 r1 : wrun a s = Ok (s1, r1) ->
  wrun (a ++ WConstruct fuel orc j dim size mtype mp mt ps :: map WCall cs) s =
  o <- construct fuel orc j dim size mtype mp mt ps ;; ' r <- run cs (o, construct_files o (snd s1)) ;;
  Ok (Some (fst (fst r)), snd (fst r), r1 ++ RUnit :: snd r).
Proof.
  intros E. rewrite wrapper_app, E. cbn [bind fst snd]. destruct s1 as (p & fs). cbn [wrun wstep snd]. destruct (construct fuel orc j dim size mtype mp mt ps) as [o|e]; cbn [bind fst snd]; [|reflexivity].
  rewrite wrapper_calls. destruct (run cs (o, construct_files o fs)) as [((o2 & fs2) & r2)|e]; reflexivity.
Qed.
End Out.
