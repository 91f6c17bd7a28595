(** The syntax tree of the body of the loop of update_vars, src/homogenize.cpp, run over the list of Gauss points, against the
    model. *)
From Coq Require Import String FMapPositive.
From Verif Require Import Base Scalar EllSpec MicroModel Clite CliteRules EllAst AsmAst HomAst GpAst GetAst Sym SymStep Grid EllModel AssemblyModel
  AsmCalls AsmPure NewtonBase ApiBase ApiRun AsmLit AsmLit2 AsmLit9 AsmLit15 AsmLit16 HomLit HomLit2 HomLit3 HomLit4 FixInst GpLit GpLit2 GetLit.
Local Open Scope string_scope.
Local Open Scope Z_scope.

Section Upd.
Context {T : Type} `{OT : Ops T}.
Notation obj := (@Clite.obj T).
Notation val := (@val T).

(** where an entry and its variables are *)
Record vplace := mkVplace { q_gp : Z; q_n : Z; q_k : Z }.
Definition vaddrs (t : vplace) : list Z := [q_gp t; q_n t; q_k t].
(** the array x of the model in memory: as long and the same at every index *)
Definition holds (h : Z -> option obj) (b : Z) (x : arr T) : Prop := exists y, h b = Some (OD y) /\ alen y = alen x /\ forall i, aget y i = aget x i.
(** the variables of an entry in memory *)
Definition vars_at (h : Z -> option obj) (g : gp T) (t : vplace) : Prop := exists gs, h (q_gp t) = Some (OS gs) /\
  match g_n g, g_k g with
  | Some n, Some k => fget gs "int_vars_n" = Some (ptr (q_n t)) /\ fget gs "int_vars_k" = Some (ptr (q_k t)) /\ holds h (q_n t) n /\ holds h (q_k t) k
  | _, _ => fget gs "int_vars_n" = Some (Some VNull)
  end.

Lemma vars_ext h h' g t : (forall a, In a (vaddrs t) -> h' a = h a) -> vars_at h g t -> vars_at h' g t.
Proof.
  intros X (gs & M & R). exists gs. rewrite X by (cbn; tauto). split; [exact M|].
  destruct (g_n g), (g_k g); try exact R. destruct R as (R1 & R2 & R3 & R4). split; [exact R1|]. split; [exact R2|]. unfold holds.
  rewrite !X by (cbn; tauto). auto.
Qed.

Theorem update_text (V : env T) P k fs : sane V ->
  forall l tl l' (h : Z -> option obj), Forall (gp_ok V) l -> h (a_this P) = Some (OS fs) -> fget fs "num_int_vars" = Some (Some (VI (nvars V))) ->
  NoDup (a_this P :: flat_map vaddrs tl) -> Forall2 (vars_at h) l tl -> mapM (update_gp V) l = Ok l' ->
  exists h', walk gp_prog "update_gp" (a_this P) [] (map q_gp tl) h k h' k /\ Forall2 (vars_at h') l' tl /\
    (forall d, ~ In d (map q_n tl) -> h' d = h d).
Proof.
  intros S. pose proof (nvars_pos V S) as NP. induction l as [|g l IH]; intros tl l' h GO MT FN ND FA E; inversion FA as [|g0 t l0 tl' GA FA']; subst.
  - cbn [mapM] in E. injection E as <-. exists h. split; [apply walk_end|]. split; [constructor|auto].
  - cbn [mapM] in E. apply bind_ok in E. destruct E as (g' & Eg & E). apply bind_ok in E. destruct E as (l2 & El & Q). injection Q as <-.
    inversion GO as [|g0 l0 Gg GO']; subst. cbn [flat_map vaddrs app] in ND.
    assert (NT : ~ In (a_this P) (q_gp t :: q_n t :: q_k t :: flat_map vaddrs tl')) by now inversion ND.
    assert (N1 : NoDup (q_gp t :: q_n t :: q_k t :: flat_map vaddrs tl')) by now inversion ND.
    assert (Na : ~ In (q_gp t) (q_n t :: q_k t :: flat_map vaddrs tl')) by now inversion N1.
    assert (N2 : NoDup (q_n t :: q_k t :: flat_map vaddrs tl')) by now inversion N1.
    assert (Nn : ~ In (q_n t) (q_k t :: flat_map vaddrs tl')) by now inversion N2.
    assert (N3 : NoDup (q_k t :: flat_map vaddrs tl')) by now inversion N2.
    assert (Nk : ~ In (q_k t) (flat_map vaddrs tl')) by now inversion N3.
    assert (N4 : NoDup (flat_map vaddrs tl')) by now inversion N3. clear ND N1 N2 N3. cbn [In] in NT, Na, Nn.
    assert (NDT : NoDup (a_this P :: flat_map vaddrs tl')) by (constructor; [tauto|exact N4]).
    assert (SUB : forall d, In d (map q_n tl') -> In d (flat_map vaddrs tl')).
    { intros d I. apply in_map_iff in I. destruct I as (u & <- & I). apply in_flat_map. exists u. split; [exact I|cbn; tauto]. }
    (* the first point *)
    assert (STEP : exists st, calls gp_prog "update_gp" [VP (a_this P) 0; VP (q_gp t) 0] h k (Ok (st, Nrm)) /\ nxt st = k /\
      (forall d, d <> q_n t -> mem st d = h d) /\ vars_at (mem st) g' t).
    { destruct GA as (gs & MG & R). destruct (update_gp_ok V g S Gg) as (g2 & E2 & UR & _). assert (g2 = g') by congruence. subst g2.
      destruct UR as (_ & _ & _ & _ & _ & _ & _ & UK & UR).
      destruct (gp_update_text V P (q_gp t) k h fs gs ltac:(intros Q; apply NT; auto) MT FN MG) as (U0 & U1). pose proof (go_vars V g Gg) as GV.
      destruct (g_n g) as [n|] eqn:En, (g_k g) as [kk|] eqn:Ek; try contradiction.
      - destruct R as (R1 & R2 & (yn & Y1 & Y2 & Y3) & (yk & Z1 & Z2 & Z3)). destruct GV as (Fn & Fk). destruct UR as (n2 & E3 & F2 & G2).
        destruct (U1 (q_n t) (q_k t) yn yk R1 R2 Y1 Z1 ltac:(intros Q; apply Nn; auto) ltac:(rewrite Y2, (full_alen _ _ Fn); lia)
          ltac:(intros i Hi; rewrite Z3; exact (proj2 Fk i Hi))) as (st & n1 & C & M1 & L1 & A1 & A2 & O1 & X1).
        exists st. split; [exact C|]. split; [exact X1|]. split; [exact O1|]. exists gs. split; [rewrite O1 by (intros Q; apply Na; auto); exact MG|].
        rewrite E3, UK. split; [exact R1|]. split; [exact R2|]. split.
        + exists n1. split; [exact M1|]. split; [rewrite L1, Y2, (full_alen _ _ Fn), (full_alen _ _ F2); reflexivity|].
          intros i. assert (D : 0 <= i < nvars V \/ ~ 0 <= i < nvars V) by lia. destruct D as [Hi|Hi].
          * now rewrite (A1 i Hi), Z3, G2.
          * rewrite (A2 i Hi), Y3. rewrite !aget_out; [reflexivity| |]; [rewrite (full_alen _ _ F2)|rewrite (full_alen _ _ Fn)]; exact Hi.
        + exists yk. rewrite O1 by (intros Q; apply Nn; auto). auto.
      - destruct (U0 R) as (st & C & M1 & X1). exists st. split; [exact C|]. split; [exact X1|]. split; [intros; now rewrite M1|].
        exists gs. rewrite M1. split; [exact MG|]. destruct UR as (UR & _). rewrite UR. exact R. }
    destruct STEP as (st & C & X1 & O1 & VA).
    destruct (IH tl' l2 (mem st) GO' ltac:(rewrite O1 by (intros Q; apply NT; auto); exact MT) FN NDT) as (h' & W & F' & FR); [|exact El|].
    { assert (GEN : forall ll, (forall u, In u ll -> In u tl') -> forall gl, Forall2 (vars_at h) gl ll -> Forall2 (vars_at (mem st)) gl ll).
      { induction ll as [|u ll IHl]; intros SB gl F; inversion F; subst; constructor.
        - apply (vars_ext h); [|assumption]. intros a I. apply O1. intros ->. apply Nn. right. apply in_flat_map. exists u. split; [apply SB; now left|exact I].
        - apply IHl; [intros v I; apply SB; now right|assumption]. }
      now apply GEN. }
    exists h'. split; [cbn [map]; eapply walk_next; [exact C|rewrite X1; exact W]|]. split.
    + constructor; [|exact F']. apply (vars_ext (mem st)); [|exact VA]. intros a I. apply FR. intros J. apply SUB in J. cbn [vaddrs In] in I.
      destruct I as [<-|[<-|[<-|[]]]]; tauto.
    + intros d D. cbn [map In] in D. rewrite FR by tauto. apply O1. intros ->. tauto.
Qed.
End Upd.

(** two points of one cell of three dimensions, the first without variables *)
Definition upd_pt (id : Z) (e : arr fx) (n k : option (arr fx)) : gp fx := mkGp id (malloc 7) n k e (malloc 6) (malloc 36) (malloc 7) inv_min.
Definition upd_mem (n k : arr fx) (a : Z) : option (@Clite.obj fx) :=
  if a =? 0 then Some (OS (obj_flds fx_env3 (ofZ 0))) else if a =? 17 then Some (OS [("int_vars_n", Some VNull); ("int_vars_k", Some VNull)]) else
  if a =? 20 then Some (OS [("int_vars_n", ptr 21); ("int_vars_k", ptr 22)]) else if a =? 21 then Some (OD n) else if a =? 22 then Some (OD k) else None.
Lemma update_case : exists e n k l', let l := [upd_pt 3 e None None; upd_pt 7 e (Some n) (Some k)] in let h := upd_mem n k in
  sane fx_env3 /\ Forall (gp_ok fx_env3) l /\ h (a_this home) = Some (OS (obj_flds fx_env3 (ofZ 0))) /\
  fget (obj_flds fx_env3 (ofZ 0)) "num_int_vars" = Some (Some (VI (nvars fx_env3))) /\
  NoDup (a_this home :: flat_map vaddrs [mkVplace 17 18 19; mkVplace 20 21 22]) /\ Forall2 (vars_at h) l [mkVplace 17 18 19; mkVplace 20 21 22] /\
  (forall i, 0 <= i < 56 -> aget n i = Some (ofZ 0) /\ aget k i = Some (ofZ 1)) /\ mapM (update_gp fx_env3) l = Ok l'.
Proof.
  destruct gp_update_case as (S & _ & e & n & k & g' & G & NK & E & _). cbv zeta in G.
  assert (G1 : gp_ok fx_env3 (upd_pt 3 e None None)) by (destruct G as [G1 G2 G3 G4 G5 G6 G7 G8]; constructor; cbn in *; auto).
  assert (G2 : gp_ok fx_env3 (upd_pt 7 e (Some n) (Some k))) by exact G.
  exists e, n, k, [upd_pt 3 e None None; g']. cbv zeta. split; [exact S|]. split; [constructor; [exact G1|constructor; [exact G2|constructor]]|].
  split; [reflexivity|]. split; [reflexivity|]. split. { cbn. repeat (constructor; [cbn [In]; intuition discriminate|]); constructor. }
  split. { constructor; [|constructor; [|constructor]]; eexists; (split; [reflexivity|]); cbn [g_n g_k upd_pt]; [reflexivity|].
    split; [reflexivity|]. split; [reflexivity|]. split; eexists; (split; [reflexivity|auto]). }
  split; [exact NK|]. cbn [mapM]. change (update_gp fx_env3 (upd_pt 7 e (Some n) (Some k))) with (update_gp fx_env3 (var_gp e n k)). rewrite E. reflexivity.
Qed.
