(** The syntax trees of src/assembly.cpp against the model: the cell routines of two
    dimensions. *)
From Coq Require Import String.
From Verif Require Import Base Scalar Clite CliteRules EllAst AsmAst Sym Grid EllModel AssemblyModel
  AsmLit AsmLit2 AsmLit3 AsmLit4 AsmLit5.
Local Open Scope string_scope.
Local Open Scope Z_scope.

Section Asm.
Context {T : Type} `{OT : Ops T}.
Notation val := (@val T). Notation obj := (@obj T). Notation obj1 := (@obj1 T).
Notation fields := (list (string * option val)).

(** the object seen by the routines of one cell, whose element is of type [z] *)
Definition flds2 (ty : Z) (V : env T) : fields :=
  this_flds 2 ty V (ptr 1) (ptr 2) (ptr 3) (ptr 4) (ptr 5) None None None None None.
Definition cel2 (ty : Z) (V : env T) (fs : fields) l2 z ml vold vnew u uf : list (option obj1) :=
  [Some (R1 fs (flds2 ty V)); Some (K1 (v_etype V) z); Some (V1 l2 ml);
   Some (Opq vold); Some (Opq vnew); Some (F1 u uf)].
Definition ux2 (V : env T) (ex ey i : Z) : Z := znth (sn2 (v_nx V) ex ey) (i / 2) * 2 + i mod 2.
Definition ed2 (V : env T) (uf : Z -> T) (ex ey : Z) : list T := map (fun i => uf (ux2 V ex ey i)) (zrange 0 8).
Definition cu2 (V : env T) (u : arr T) (uf : Z -> T) (ex ey : Z) : list Prop :=
  flat_map (fun d => map (fun n => rd u (ux2 V ex ey (n * 2 + d)) = Ok (uf (ux2 V ex ey (n * 2 + d)))) (zrange 0 4))
    (zrange 0 2).
Definition ce2 (V : env T) (ex ey z : Z) : Prop := rd (v_etype V) (glo_elem3D (v_nx V) (v_ny V) ex ey 0) = Ok z.
Definition sn2_at (V : env T) uf ex ey gp : list T := strain_of 3 8 (B2 V gp) (ed2 V uf ex ey).

Ltac cases4 H := change (zrange 0 4) with [0; 1; 2; 3] in H; repeat destruct H as [<-|H]; try contradiction.

(** ** get_strain2D *)
Lemma sn2_run ty V fs l2 z ml vold vnew u uf n ex ey gp : In gp (zrange 0 4) -> (n = 3%nat \/ n = 6%nat) ->
  out 7 (exec1 asm_prog noSM 100 (f_body ast_get_strain2D)
    (mk1 [("this", VP 0 0); ("ex", VI ex); ("ey", VI ey); ("gp", VI gp); ("strain_gp", VP 6 0)]
      (cel2 ty V fs l2 z ml vold vnew u uf ++ [Some (D1 (nc n))])%list) []) =
  Some (cel2 ty V fs l2 z ml vold vnew u uf ++ [Some (D1 (fc 3 (lget (sn2_at V uf ex ey gp)) ++ nc (n - 3)))],
    cu2 V u uf ex ey)%list.
Proof. intros G N. cases4 G; destruct N as [-> | ->]; vmr. Qed.

(** ** get_stress2D *)
Lemma gs2_run ty V fs l2 z m p vold vnew u uf ae eps n ex ey gp : (ty = 0 \/ ty = 1) -> (n = 3%nat \/ n = 6%nat) ->
  out 9 (exec1 asm_prog noSM 100 (f_body ast_get_stress2D)
    (mk1 [("this", VP 0 0); ("ex", VI ex); ("ey", VI ey); ("gp", VI gp); ("strain_gp", VP 6 0);
          ("non_linear", VP 7 0); ("stress_gp", VP 8 0)]
      (cel2 ty V fs l2 z (matl z (mat_flds m (Some p))) vold vnew u uf ++ [Some (C1 ae (fc 3 (lget eps))); Some (I1 (nc 1)); Some (D1 (nc n))])%list) []) =
  Some (cel2 ty V fs l2 z (matl z (mat_flds m (Some p))) vold vnew u uf ++
         [Some (C1 ae (fc 3 (lget eps))); Some (I1 [Some 0]); Some (D1 (fc 3 (lget (stress2 (m_E m) (m_nu m) eps)) ++ nc (n - 3)))],
    [ce2 V ex ey z])%list.
Proof. intros [-> | ->] N; destruct z; destruct N as [-> | ->]; vmr. Qed.
(** ** get_elem_rhs2D *)
Definition sg2_at V m uf ex ey gp : list T := stress2 (m_E m) (m_nu m) (sn2_at V uf ex ey gp).
Definition rhs2_of V m uf ex ey : list T :=
  fold_left (fun be gp => add_rhs 3 8 (B2 V gp) (sg2_at V m uf ex ey gp) (wg2 V) be) (zrange 0 4) (zeros 8).
Lemma rhs2_run ty V fs l2 z m p vold vnew u uf ex ey : (ty = 0 \/ ty = 1) ->
  out 8 (exec1 asm_prog noSM 100 (f_body ast_get_elem_rhs2D)
    (mk1 [("this", VP 0 0); ("ex", VI ex); ("ey", VI ey); ("non_linear", VP 7 0); ("be", VP 6 0)]
      (cel2 ty V fs l2 z (matl z (mat_flds m (Some p))) vold vnew u uf ++ [Some (D1 (nc 8)); Some (I1 (nc 1))])%list) []) =
  Some (cel2 ty V fs l2 z (matl z (mat_flds m (Some p))) vold vnew u uf ++ [Some (D1 (fc 8 (lget (rhs2_of V m uf ex ey)))); Some (I1 [Some 0])],
    flat_map (fun _ => cu2 V u uf ex ey ++ [ce2 V ex ey z]) (zrange 0 4))%list.
Proof. intros [-> | ->]; destruct z; vmr. Qed.
(** ** get_elem_mat2D *)
Definition mat2_of V m : list T :=
  fold_left (fun Ae gp => add_mat 3 8 (B2 V gp) (ctan2 (m_E m) (m_nu m)) (wg2 V) Ae) (zrange 0 4) (zeros 64).
Lemma mat2_run ty V fs l2 z m p vold vnew u uf ex ey : (ty = 0 \/ ty = 1) ->
  out 7 (exec1 asm_prog noSM 100 (f_body ast_get_elem_mat2D)
    (mk1 [("this", VP 0 0); ("ex", VI ex); ("ey", VI ey); ("Ae", VP 6 0)]
      (cel2 ty V fs l2 z (matl z (mat_flds m (Some p))) vold vnew u uf ++ [Some (D1 (nc 64))])%list) []) =
  Some (cel2 ty V fs l2 z (matl z (mat_flds m (Some p))) vold vnew u uf ++ [Some (D1 (fc 64 (lget (mat2_of V m))))], [ce2 V ex ey z])%list.
Proof. intros [-> | ->]; destruct z; vmr. Qed.

(** ** what the model's routines do, in the terms of the runs *)
Lemma gm_inv (V : env T) e m p : get_material V e = Ok (m, p) -> exists z,
  (v_type V = 0 \/ v_type V = 1) /\ rd (v_etype V) e = Ok z /\
  nth_error (v_mats V) (Z.to_nat (if z =? 0 then 0 else 1)) = Some m /\ m_plast m = Some p.
Proof.
  intros G. unfold get_material in G. apply bind_ok in G. destruct G as (num & GN & G).
  apply bind_ok in G. destruct G as (m' & GM & G). apply bind_ok in G. destruct G as (p' & GP & G).
  injection G as -> ->.
  destruct ((v_type V =? 0) || (v_type V =? 1)) eqn:TY; [|discriminate].
  apply bind_ok in GN. destruct GN as (z & RZ & GN). injection GN as <-.
  destruct (nth_error (v_mats V) (Z.to_nat (if z =? 0 then 0 else 1))) as [m0|] eqn:NM; [|discriminate].
  injection GM as ->. destruct (m_plast m) as [p0|] eqn:MP; [|discriminate]. injection GP as ->.
  exists z. split; [|auto]. apply orb_prop in TY. destruct TY as [TY|TY]; apply Z.eqb_eq in TY; auto.
Qed.
Lemma ed2_inv (V : env T) u ex ey ed : elem_disp2 V u ex ey = Ok ed ->
  ed = ed2 V (rdv u) ex ey /\ alls (cu2 V u (rdv u) ex ey).
Proof.
  intros ME. destruct (mapM_map _ (fun i => rdv u (ux2 V ex ey i)) _ _ ME) as (-> & RD).
  { intros x y _ E. now apply rdv_ok. }
  split; [reflexivity|]. apply alls_in. intros p I.
  apply in_flat_map in I. destruct I as (d & D & I). apply in_map_iff in I. destruct I as (n & <- & I).
  apply in_zrange in D, I. apply RD. apply in_zrange. lia.
Qed.
Lemma strain2_inv (V : env T) u ex ey gp eps : get_strain2D V u ex ey gp = Ok eps ->
  eps = sn2_at V (rdv u) ex ey gp /\ alls (cu2 V u (rdv u) ex ey).
Proof.
  unfold get_strain2D. intros E. apply bind_ok in E. destruct E as (ed & E1 & E). injection E as <-.
  destruct (ed2_inv _ _ _ _ _ E1) as (-> & AL). auto.
Qed.
Lemma alls_app (l l' : list Prop) : alls l -> alls l' -> alls (l ++ l')%list.
Proof. induction l as [|p l IH]; cbn; tauto. Qed.
Lemma alls_flat {X} (f : X -> list Prop) l : (forall x, In x l -> alls (f x)) -> alls (flat_map f l).
Proof.
  induction l as [|x l IH]; cbn [flat_map]; [exact (fun _ => I)|]. intros H. apply alls_app; [apply H; now left|].
  apply IH. intros y I. apply H. now right.
Qed.

(** the first six objects hold the body *)
Lemma cel2_at V A fs l2 z ml vold vnew u uf h ad l : ad = (body_addrs A ++ l)%list ->
  h (a_this A) = Some (OS fs) -> this_in fs V A -> h (a_et A) = Some (OI (v_etype V)) -> h (a_ml A) = Some (OV l2) ->
  h (a_vo A) = Some (OD vold) -> h (a_vn A) = Some (OD vnew) -> h (a_u A) = Some (OD u) ->
  v_dim V = 2 ->
  (forall i f, nth_error ml i = Some f -> exists fs2, nth_error l2 i = Some fs2 /\ rfs ad f fs2) ->
  atall ad (body_addrs A) (cel2 (v_type V) V fs l2 z ml vold vnew u uf) h.
Proof.
  intros -> H1 TI H2 H3 H4 H5 H6 D2 ML. unfold cel2, body_addrs. cbn -[flds2].
  splits; try exact I; (eexists; split; [eassumption|]); try reflexivity.
  - split; [reflexivity|]. apply (this_rfs _ fs 2 (v_type V) V A); auto; try exact I; eexists; split; reflexivity.
  - split; [reflexivity|exact ML].
Qed.
Lemma cel2_get V A fs l2 z ml vold vnew u uf h full : mats_in l2 V -> this_in fs V A ->
  atall full (body_addrs A) (cel2 (v_type V) V fs l2 z ml vold vnew u uf) h -> body V A vold vnew u h.
Proof.
  intros MI TI AT. unfold cel2, body_addrs in AT. cbn -[flds2 ro] in AT.
  destruct AT as ((o0 & M0 & R0) & (o1 & M1 & R1') & (o2 & M2 & R2) & (o3 & M3 & R3) & (o4 & M4 & R4) &
      (o5 & M5 & R5) & _).
  cbn [ro] in *. destruct R0 as (-> & _). destruct R2 as (-> & _). subst. exists fs, l2. auto 10.
Qed.
Lemma body_same V A vold vnew u (h h' : Z -> option obj) fs l2 c : h (a_this A) = Some (OS fs) ->
  h (a_ml A) = Some (OV l2) -> body V A vold vnew u h ->
  h' (a_this A) = Some (OS fs) -> h' (a_ml A) = Some (OV l2) -> body V A vold vnew u h' ->
  In c (body_addrs A) -> h' c = h c.
Proof.
  intros A1 A2 (f1 & l1 & H0 & _ & H2 & H3 & _ & H5 & H6 & H7) B1 B2' (f2 & l3 & G0 & _ & G2 & G3 & _ & G5 & G6 & G7) IN.
  cbn in IN. repeat destruct IN as [<-|IN]; try contradiction; congruence.
Qed.

(** a run of a cell routine on the body and further objects *)
Lemma cell2_call V A vold vnew u h k fn f vs1 vs2 env1 extra os1 fuel os1' P fs l2 z ml :
  out (6 + List.length os1)%nat (exec1 asm_prog noSM fuel (f_body f)
    (mk1 env1 (cel2 (v_type V) V fs l2 z ml vold vnew u (rdv u) ++ os1)%list) []) =
    Some (cel2 (v_type V) V fs l2 z ml vold vnew u (rdv u) ++ os1', P)%list ->
  v_dim V = 2 -> NoDup (body_addrs A ++ extra)%list -> Forall (fun a => a < k) (body_addrs A ++ extra)%list ->
  h (a_this A) = Some (OS fs) -> this_in fs V A -> h (a_ml A) = Some (OV l2) -> mats_in l2 V ->
  body V A vold vnew u h ->
  (forall i f, nth_error ml i = Some f -> exists fs2, nth_error l2 i = Some fs2 /\ rfs (body_addrs A ++ extra)%list f fs2) ->
  atall (body_addrs A ++ extra)%list extra os1 h ->
  alls P ->
  asm_prog fn = Some f -> bindp1 (f_params f) vs1 [] = Some env1 ->
  Forall2 (rvr (body_addrs A ++ extra)%list) vs1 vs2 ->
  exists l st, calls asm_prog fn vs2 h k (Ok (st, Nrm)) /\ body V A vold vnew u (mem st) /\
    atall ((body_addrs A ++ extra) ++ l)%list extra os1' (mem st) /\ frame h (mem st) k extra /\ k <= nxt st.
Proof.
  intros RUN D2 ND FK HT TI HM MI BD ML AX AL PF BP RV.
  assert (BD' := BD). destruct BD' as (fs' & l2' & H0 & _ & H2 & H3 & _ & H5 & H6 & H7).
  set (ad := (body_addrs A ++ extra)%list) in *.
  destruct (calls_out asm_prog noSM noSM_ok fn f vs1 vs2 env1 ad _ h k fuel [] _ P RUN PF BP AL ND FK RV)
    as (l & st & C & AT & (K1' & K2')).
  { unfold ad at 2. refine (atall_app _ _ _ _ _ _ _ _); [|exact AX].
    eapply cel2_at; eauto. reflexivity. }
  unfold ad at 2 in AT. apply atall_split in AT; [|reflexivity]. destruct AT as (AT1 & AT2).
  assert (BD2 := cel2_get _ A _ _ _ _ _ _ _ _ _ _ MI TI AT1).
  exists l, st. split; [exact C|]. split; [exact BD2|]. split; [exact AT2|]. split; [|exact K1'].
  intros c LC N. destruct (in_dec Z.eq_dec c (body_addrs A)) as [IN|IN].
  2:{ apply K2'; [exact LC|]. unfold ad. intros I. apply in_app_iff in I. tauto. }
  unfold cel2, body_addrs in AT1. cbn -[flds2 ro] in AT1.
  destruct AT1 as ((o0 & M0 & R0) & _ & (o2 & M2 & R2) & _). cbn [ro] in R0, R2.
  destruct R0 as (-> & _). destruct R2 as (-> & _).
  eapply body_same with (fs := fs) (l2 := l2); eauto.
Qed.

Lemma fc_nc n (a : arr T) f r : cells a (fc n f ++ nc r)%list ->
  alen a = Z.of_nat (n + r) /\ forall i, 0 <= i < Z.of_nat n -> aget a i = Some (f i).
Proof.
  intros (L & C). unfold fc, nc in *. rewrite app_length, map_length, seq_length, repeat_length in L. split; [exact L|].
  intros i R. rewrite <- (Z2Nat.id i) by lia. apply C. rewrite nth_error_app1 by (rewrite map_length, seq_length; lia).
  rewrite nth_error_map, (nth_error_nth' _ 0%nat) by (rewrite seq_length; lia). rewrite seq_nth by lia. reflexivity.
Qed.
(** the first [n] entries of an array *)
Definition pvec (n : Z) (a : arr T) (l : list T) : Prop := forall i, 0 <= i < n -> aget a i = Some (lget l i).

Ltac dbody BD := let fs := fresh "fs" in let l2 := fresh "l2" in let B0 := fresh "B0" in let B1 := fresh "B1" in
  let B2 := fresh "B2" in let B3 := fresh "B3" in let B4 := fresh "B4" in let R := fresh "R" in
  pose proof BD as (fs & l2 & B0 & B1 & B2 & B3 & B4 & R).

Theorem get_strain2D_text V A vold vnew u h k bs as_ ex ey gp eps :
  v_dim V = 2 -> 0 <= gp < 4 -> NoDup (body_addrs A ++ [bs])%list ->
  Forall (fun a => a < k) (body_addrs A ++ [bs])%list -> body V A vold vnew u h ->
  h bs = Some (OD as_) -> (alen as_ = 3 \/ alen as_ = 6) ->
  get_strain2D V u ex ey gp = Ok eps ->
  exists st as', calls asm_prog "get_strain2D" [VP (a_this A) 0; VI ex; VI ey; VI gp; VP bs 0] h k (Ok (st, Nrm)) /\
    body V A vold vnew u (mem st) /\ mem st bs = Some (OD as') /\ alen as' = alen as_ /\ pvec 3 as' eps /\
    frame h (mem st) k [bs] /\ k <= nxt st.
Proof.
  intros D2 G ND FK BD HS LS M. dbody BD. apply strain2_inv in M. destruct M as (-> & AL).
  assert (N : exists n : nat, (n = 3%nat \/ n = 6%nat) /\ alen as_ = Z.of_nat n).
  { destruct LS as [->| ->]; [exists 3%nat|exists 6%nat]; auto. }
  destruct N as (n & N & LN).
  destruct (cell2_call V A vold vnew u h k "get_strain2D" ast_get_strain2D
    [VP 0 0; VI ex; VI ey; VI gp; VP 6 0] [VP (a_this A) 0; VI ex; VI ey; VI gp; VP bs 0] _ [bs]
    [Some (D1 (nc n))] 100 _ _ fs l2 0 []
    (sn2_run (v_type V) V fs l2 0 [] vold vnew u (rdv u) n ex ey gp (proj2 (in_zrange 0 4 gp) G) N)
    D2 ND FK B0 B1 B3 B4 BD)
    as (l & st & C & BD' & AT & FR & KN).
  - intros i f E. destruct i; discriminate.
  - cbn -[nc]. split; [|exact I]. exists (OD as_). split; [exact HS|]. exists as_. split; [reflexivity|]. now apply nc_cells.
  - exact AL.
  - reflexivity.
  - reflexivity.
  - repeat constructor; eexists; split; reflexivity.
  - cbn -[nc fc Nat.sub] in AT. destruct AT as ((o & M1 & (as' & -> & R1')) & _). apply fc_nc in R1'. destruct R1' as (L & V').
    exists st, as'. splits; auto. rewrite L, LN. f_equal. lia.
Qed.

Theorem get_stress2D_text V A vold vnew u h k be bl bs ae eps fl as_ ex ey gp nl s :
  v_dim V = 2 -> NoDup (body_addrs A ++ [be; bl; bs])%list ->
  Forall (fun a => a < k) (body_addrs A ++ [be; bl; bs])%list -> body V A vold vnew u h ->
  h be = Some (OD ae) -> vec 3 ae eps -> h bl = Some (OI fl) -> alen fl = 1 ->
  h bs = Some (OD as_) -> (alen as_ = 3 \/ alen as_ = 6) ->
  get_stress2D V ex ey gp eps = Ok (nl, s) ->
  exists st fl' as',
    calls asm_prog "get_stress2D" [VP (a_this A) 0; VI ex; VI ey; VI gp; VP be 0; VP bl 0; VP bs 0] h k (Ok (st, Nrm)) /\
    body V A vold vnew u (mem st) /\ mem st be = Some (OD ae) /\
    mem st bl = Some (OI fl') /\ alen fl' = 1 /\ aget fl' 0 = Some (if nl then 1 else 0) /\
    mem st bs = Some (OD as') /\ alen as' = alen as_ /\ pvec 3 as' s /\
    frame h (mem st) k [bl; bs] /\ k <= nxt st.
Proof.
  intros D2 ND FK BD HE VE HL LL HS LS M. dbody BD. unfold get_stress2D in M.
  apply bind_ok in M. destruct M as ((m & p) & G & M). cbn [fst] in M. injection M as <- <-.
  destruct (gm_inv _ _ _ _ G) as (z & TY & RZ & NM & MP).
  assert (N : exists n : nat, (n = 3%nat \/ n = 6%nat) /\ alen as_ = Z.of_nat n).
  { destruct LS as [->| ->]; [exists 3%nat|exists 6%nat]; auto. }
  destruct N as (n & N & LN).
  destruct (cell2_call V A vold vnew u h k "get_stress2D" ast_get_stress2D
    [VP 0 0; VI ex; VI ey; VI gp; VP 6 0; VP 7 0; VP 8 0]
    [VP (a_this A) 0; VI ex; VI ey; VI gp; VP be 0; VP bl 0; VP bs 0] _ [be; bl; bs]
    [Some (C1 ae (fc 3 (lget eps))); Some (I1 (nc 1)); Some (D1 (nc n))] 100 _ _ fs l2 z _
    (gs2_run (v_type V) V fs l2 z m p vold vnew u (rdv u) ae eps n ex ey gp TY N)
    D2 ND FK B0 B1 B3 B4 BD)
    as (l & st & C & BD' & AT & FR & KN).
  - eapply mats_rv; eauto.
  - cbn -[nc fc]. splits; try exact I; eexists; (split; [eassumption|]).
    + split; [reflexivity|]. now apply vec_cells.
    + eexists. split; [reflexivity|]. now apply nc_cells.
    + eexists. split; [reflexivity|]. now apply nc_cells.
  - cbn [alls]. auto.
  - reflexivity.
  - reflexivity.
  - repeat constructor; eexists; split; reflexivity.
  - cbn -[nc fc Nat.sub stress2] in AT.
    destruct AT as ((o & M0 & (-> & _)) & (o1 & M1 & (fl' & -> & R1')) & (o2 & M2 & (as' & -> & R2)) & _).
    apply fc_nc in R2. destruct R2 as (L & V'). apply one_cells in R1'.
    exists st, fl', as'. splits; auto; try apply R1'.
    + rewrite L, LN. f_equal. lia.
    + intros c LC NC. destruct (Z.eq_dec c be) as [->|NE]; [congruence|]. apply FR; [exact LC|].
      cbn in *. intros [E|E]; [congruence|tauto].
Qed.

(** get_elem_rhs2D and get_elem_mat2D of the model *)
Lemma rhs2_inv (V : env T) u ex ey r : get_elem_rhs2D V u ex ey = Ok r ->
  exists z m p, (v_type V = 0 \/ v_type V = 1) /\ ce2 V ex ey z /\
    nth_error (v_mats V) (Z.to_nat (if z =? 0 then 0 else 1)) = Some m /\ m_plast m = Some p /\
    r = (rhs2_of V m (rdv u) ex ey, false) /\ alls (cu2 V u (rdv u) ex ey).
Proof.
  unfold get_elem_rhs2D. intros E.
  assert (S : exists m p, get_material V (glo_elem3D (v_nx V) (v_ny V) ex ey 0) = Ok (m, p) /\ alls (cu2 V u (rdv u) ex ey)).
  { change (zrange 0 4) with (0 :: [1; 2; 3]) in E. cbn [foldM] in E. apply bind_ok in E. destruct E as (st & E & _).
    apply bind_ok in E. destruct E as (eps & E1 & E). apply bind_ok in E. destruct E as (s & E2 & _).
    unfold get_stress2D in E2. apply bind_ok in E2. destruct E2 as ((m & p) & G & _).
    exists m, p. split; [exact G|]. eapply strain2_inv; eauto. }
  destruct S as (m & p & G & AL). destruct (gm_inv _ _ _ _ G) as (z & TY & RZ & NM & MP).
  exists z, m, p. splits; auto.
  assert (H : forall l st, foldM (fun st gp => eps <- get_strain2D V u ex ey gp ;; ' s <- get_stress2D V ex ey gp eps ;;
      Ok (add_rhs 3 8 (B2 V gp) (snd s) (wg2 V) (fst st), fst s)) l (st, false) = Ok r ->
    r = (fold_left (fun be gp => add_rhs 3 8 (B2 V gp) (sg2_at V m (rdv u) ex ey gp) (wg2 V) be) l st, false)).
  { clear E. induction l as [|gp l IH]; intros st E; cbn [foldM fold_left] in *; [now injection E as <-|].
    apply bind_ok in E. destruct E as (st1 & E & E2). apply bind_ok in E. destruct E as (eps & E1 & E).
    apply strain2_inv in E1. destruct E1 as (-> & _).
    unfold get_stress2D in E. rewrite G in E. cbn [bind fst snd] in E. injection E as <-. apply IH. exact E2. }
  apply H. exact E.
Qed.

Theorem get_elem_rhs2D_text V A vold vnew u h k bb bl ab fl ex ey be nl :
  v_dim V = 2 -> NoDup (body_addrs A ++ [bb; bl])%list ->
  Forall (fun a => a < k) (body_addrs A ++ [bb; bl])%list -> body V A vold vnew u h ->
  h bb = Some (OD ab) -> alen ab = 8 -> h bl = Some (OI fl) -> alen fl = 1 ->
  get_elem_rhs2D V u ex ey = Ok (be, nl) ->
  exists st ab' fl',
    calls asm_prog "get_elem_rhs2D" [VP (a_this A) 0; VI ex; VI ey; VP bl 0; VP bb 0] h k (Ok (st, Nrm)) /\
    body V A vold vnew u (mem st) /\ mem st bb = Some (OD ab') /\ vec 8 ab' be /\
    mem st bl = Some (OI fl') /\ alen fl' = 1 /\ aget fl' 0 = Some (if nl then 1 else 0) /\
    frame h (mem st) k [bb; bl] /\ k <= nxt st.
Proof.
  intros D2 ND FK BD HB LB HL LL M. dbody BD.
  destruct (rhs2_inv _ _ _ _ _ M) as (z & m & p & TY & RZ & NM & MP & E & AL). injection E as -> ->.
  destruct (cell2_call V A vold vnew u h k "get_elem_rhs2D" ast_get_elem_rhs2D
    [VP 0 0; VI ex; VI ey; VP 7 0; VP 6 0] [VP (a_this A) 0; VI ex; VI ey; VP bl 0; VP bb 0] _ [bb; bl]
    [Some (D1 (nc 8)); Some (I1 (nc 1))] 100 _ _ fs l2 z _
    (rhs2_run (v_type V) V fs l2 z m p vold vnew u (rdv u) ex ey TY)
    D2 ND FK B0 B1 B3 B4 BD)
    as (l & st & C & BD' & AT & FR & KN).
  - eapply mats_rv; eauto.
  - cbn -[nc fc]. splits; try exact I; eexists; (split; [eassumption|]);
      eexists; (split; [reflexivity|]); now apply nc_cells.
  - apply alls_flat. intros x _. apply alls_app; [exact AL|]. cbn [alls]. auto.
  - reflexivity.
  - reflexivity.
  - repeat constructor; eexists; split; reflexivity.
  - cbn -[nc fc rhs2_of] in AT.
    destruct AT as ((o1 & M1 & (ab' & -> & R1')) & (o2 & M2 & (fl' & -> & R2)) & _).
    apply vec_cells in R1'. apply one_cells in R2. exists st, ab', fl'. splits; auto; apply R2.
Qed.

Lemma mat2_inv (V : env T) ex ey Ae : get_elem_mat2D V ex ey = Ok Ae ->
  exists z m p, (v_type V = 0 \/ v_type V = 1) /\ ce2 V ex ey z /\
    nth_error (v_mats V) (Z.to_nat (if z =? 0 then 0 else 1)) = Some m /\ m_plast m = Some p /\ Ae = mat2_of V m.
Proof.
  unfold get_elem_mat2D. intros E. apply bind_ok in E. destruct E as ((m & p) & G & E). injection E as <-.
  destruct (gm_inv _ _ _ _ G) as (z & TY & RZ & NM & MP). exists z, m, p. splits; auto.
Qed.
Theorem get_elem_mat2D_text V A vold vnew u h k bb ab ex ey Ae :
  v_dim V = 2 -> NoDup (body_addrs A ++ [bb])%list ->
  Forall (fun a => a < k) (body_addrs A ++ [bb])%list -> body V A vold vnew u h ->
  h bb = Some (OD ab) -> alen ab = 64 -> get_elem_mat2D V ex ey = Ok Ae ->
  exists st ab',
    calls asm_prog "get_elem_mat2D" [VP (a_this A) 0; VI ex; VI ey; VP bb 0] h k (Ok (st, Nrm)) /\
    body V A vold vnew u (mem st) /\ mem st bb = Some (OD ab') /\ vec 64 ab' Ae /\
    frame h (mem st) k [bb] /\ k <= nxt st.
Proof.
  intros D2 ND FK BD HB LB M. dbody BD.
  destruct (mat2_inv _ _ _ _ M) as (z & m & p & TY & RZ & NM & MP & ->).
  destruct (cell2_call V A vold vnew u h k "get_elem_mat2D" ast_get_elem_mat2D
    [VP 0 0; VI ex; VI ey; VP 6 0] [VP (a_this A) 0; VI ex; VI ey; VP bb 0] _ [bb]
    [Some (D1 (nc 64))] 100 _ _ fs l2 z _
    (mat2_run (v_type V) V fs l2 z m p vold vnew u (rdv u) ex ey TY)
    D2 ND FK B0 B1 B3 B4 BD)
    as (l & st & C & BD' & AT & FR & KN).
  - eapply mats_rv; eauto.
  - cbn -[nc]. split; [|exact I]. exists (OD ab). split; [exact HB|]. exists ab. split; [reflexivity|]. now apply nc_cells.
  - cbn [alls]. auto.
  - reflexivity.
  - reflexivity.
  - repeat constructor; eexists; split; reflexivity.
  - cbn -[nc fc mat2_of] in AT. destruct AT as ((o1 & M1 & (ab' & -> & R1')) & _). apply vec_cells in R1'.
    exists st, ab'. splits; auto.
Qed.
End Asm.
