(** The syntax trees of src/assembly.cpp against the model: get_elem_rhs3D,
    get_ctan_plast_pert and get_elem_mat3D. *)
From Coq Require Import String.
From Verif Require Import Base Scalar Clite CliteRules EllAst AsmAst Sym Grid EllModel AssemblyModel
  AsmLit AsmLit2 AsmLit3 AsmLit4.
Local Open Scope string_scope.
Local Open Scope Z_scope.

Section Asm.
Context {T : Type} `{OT : Ops T}.
Notation val := (@val T). Notation obj := (@obj T). Notation obj1 := (@obj1 T).
Notation fields := (list (string * option val)).

Definition pre6 (V : env T) (fs : fields) l2 vold vnew u : list (option obj1) :=
  [Some (R1 fs (this_flds 3 (v_type V) V (ptr 1) (ptr 2) (ptr 3) (ptr 4) (ptr 5) None None None None None));
   Some (K1 (v_etype V) 0); Some (V1 l2 []); Some (Opq vold); Some (Opq vnew); Some (Opq u)].
Definition fe (e : list T) : list T := ltab 6 (lget e).

Section Gen.
Variable V : env T.
Variable Wt : fields -> Prop.
Variable W : fields -> fields -> arr Z -> list fields -> Prop.
Variable B : Z -> Z -> Z -> T.
Variable gst : arr T -> Z -> Z -> Z -> Z -> res (list T).
Variable gss : arr T -> arr T -> Z -> Z -> Z -> Z -> list T -> res (bool * list T * arr T).
Definition SM2 : string -> option (@summary T) := fun f =>
  if String.eqb f "calc_bmat_3D" then Some (sm_bmatg Wt B)
  else if String.eqb f "get_strain3D" then Some (sm_strain W gst)
  else if String.eqb f "get_stress3D" then Some (sm_stress W gss) else None.

Variables (u vold : arr T) (ex ey ez : Z).
(** ** get_elem_rhs3D *)
Definition rst : Type := list T * bool * arr T.
Definition rhs_r1 (gp : Z) := gst u ex ey ez gp.
Definition rhs_r2 (st : rst) (gp : Z) := gss vold (snd st) ex ey ez gp (fe (g_eps (rhs_r1 gp))).
Definition rhs_step (st : rst) (gp : Z) : rst :=
  (add_rhs 6 24 (B gp) (g_sig (rhs_r2 st gp)) (wg3 V) (fst (fst st)), g_nl (rhs_r2 st gp), g_vn (snd st) (rhs_r2 st gp)).
Fixpoint rhs_conds (C : list Prop) (C2 : Prop) (l : list Z) (st : rst) : list Prop :=
  match l with
  | [] => []
  | gp :: l => ([0 <= gp < 8] ++ C ++ [0 <= gp < 8; C2; rhs_r1 gp = Ok (g_eps (rhs_r1 gp)); C2;
      rhs_r2 st gp = Ok (g_nl (rhs_r2 st gp), g_sig (rhs_r2 st gp), g_vn (snd st) (rhs_r2 st gp))]
      ++ rhs_conds C C2 l (rhs_step st gp))%list
  end.
Definition rhs_end (vnew : arr T) : rst := fold_left rhs_step (zrange 0 8) (zeros 24, false, vnew).
Lemma rhs_run fs l2 vnew :
  out 8 (exec1 asm_prog SM2 100 (f_body ast_get_elem_rhs3D)
    (mk1 [("this", VP 0 0); ("ex", VI ex); ("ey", VI ey); ("ez", VI ez); ("non_linear", VP 7 0); ("be", VP 6 0)]
      (pre6 V fs l2 vold vnew u ++ [Some (D1 (nc 24)); Some (I1 (nc 1))])%list) []) =
  Some (pre6 V fs l2 vold (snd (rhs_end vnew)) u ++
          [Some (D1 (fc 24 (lget (fst (fst (rhs_end vnew)))))); Some (I1 [Some (if snd (fst (rhs_end vnew)) then 1 else 0)])],
        rhs_conds [Wt fs] (W fs (this_flds 3 (v_type V) V (ptr 1) (ptr 2) (ptr 3) (ptr 4) (ptr 5) None None None None None)
                     (v_etype V) l2) (zrange 0 8) (zeros 24, false, vnew))%list.
Proof. vmr. Qed.
End Gen.

Lemma SM2_ok V : v_dim V = 3 -> forall f sm,
  SM2 (Wt V) (Wok V) (B3 V) (get_strain3D V) (get_stress3D V) f = Some sm -> sum_ok asm_prog f sm.
Proof.
  intros D3 f sm. unfold SM2. destruct (String.eqb_spec f "calc_bmat_3D").
  { intros [= <-]. subst f. now apply sm_bmat_ok. }
  destruct (String.eqb_spec f "get_strain3D").
  { intros [= <-]. subst f. now apply sm_strain_ok. }
  destruct (String.eqb_spec f "get_stress3D"); [|discriminate].
  intros [= <-]. subst f. now apply sm_stress_ok.
Qed.

Lemma fe_strain V u ex ey ez gp eps : get_strain3D V u ex ey ez gp = Ok eps -> fe eps = eps.
Proof.
  unfold get_strain3D. intros E. apply bind_ok in E. destruct E as (ed & _ & E). injection E as <-. reflexivity.
Qed.

Lemma rhs_foldM V u vold ex ey ez C (C2 : Prop) : alls C -> C2 -> forall l st st', Forall (fun gp => 0 <= gp < 8) l ->
  foldM (fun st gp =>
    eps <- get_strain3D V u ex ey ez gp ;;
    ' s <- get_stress3D V vold (snd st) ex ey ez gp eps ;;
    Ok (add_rhs 6 24 (B3 V gp) (snd (fst s)) (wg3 V) (fst (fst st)), fst (fst s), snd s)) l st = Ok st' ->
  st' = fold_left (rhs_step V (B3 V) (get_strain3D V) (get_stress3D V) u vold ex ey ez) l st /\
  alls (rhs_conds V (B3 V) (get_strain3D V) (get_stress3D V) u vold ex ey ez C C2 l st).
Proof.
  intros HC HC2. induction l as [|gp l IH]; intros st st' F E.
  - cbn in E. injection E as <-. cbn. auto.
  - cbn [foldM] in E. apply bind_ok in E. destruct E as (st1 & E & E2).
    apply bind_ok in E. destruct E as (eps & E1 & E). apply bind_ok in E. destruct E as (((nl & s) & vn) & E3 & E).
    cbn [fst snd] in E. injection E as E. inversion F as [|? ? Hg F']; subst.
    assert (ST : (add_rhs 6 24 (B3 V gp) s (wg3 V) (fst (fst st)), nl, vn) =
       rhs_step V (B3 V) (get_strain3D V) (get_stress3D V) u vold ex ey ez st gp).
    { unfold rhs_step, rhs_r2, rhs_r1. rewrite E1. cbn [g_eps]. rewrite (fe_strain _ _ _ _ _ _ _ E1), E3. reflexivity. }
    rewrite ST in E2. destruct (IH _ _ F' E2) as (-> & AL). split; [reflexivity|].
    cbn [rhs_conds]. apply alls_in. intros p I. apply in_app_iff in I. destruct I as [[<-|[]]|I]; [exact Hg|].
    apply in_app_iff in I. destruct I as [I|I].
    { clear -HC I. revert HC. induction C as [|c C IH]; [contradiction|]. intros (H & H'). destruct I as [<-|I]; auto. }
    cbn [app In] in I. destruct I as [<-|[<-|[<-|[<-|[<-|I]]]]].
    + exact Hg.
    + exact HC2.
    + unfold rhs_r1. rewrite E1. reflexivity.
    + exact HC2.
    + unfold rhs_r2, rhs_r1. rewrite E1. cbn [g_eps]. rewrite (fe_strain _ _ _ _ _ _ _ E1), E3. reflexivity.
    + clear -AL I. revert AL I. generalize (rhs_conds V (B3 V) (get_strain3D V) (get_stress3D V) u vold ex ey ez C C2 l
        (rhs_step V (B3 V) (get_strain3D V) (get_stress3D V) u vold ex ey ez st gp)). intros L.
      induction L as [|c L IH]; [contradiction|]. intros (H & H') [<-|I]; auto.
Qed.

(** the first six objects hold the body *)
Lemma pre6_at V A fs l2 vold vnew u h ad l : ad = (body_addrs A ++ l)%list ->
  h (a_this A) = Some (OS fs) -> this_in fs V A -> h (a_et A) = Some (OI (v_etype V)) -> h (a_ml A) = Some (OV l2) ->
  h (a_vo A) = Some (OD vold) -> h (a_vn A) = Some (OD vnew) -> h (a_u A) = Some (OD u) ->
  v_dim V = 3 -> atall ad (body_addrs A) (pre6 V fs l2 vold vnew u) h.
Proof.
  intros -> H1 TI H2 H3 H4 H5 H6 D3. unfold pre6, body_addrs. cbn -[this_flds].
  splits; try exact I; (eexists; split; [eassumption|]); try reflexivity.
  - split; [reflexivity|]. apply (this_rfs _ fs 3 (v_type V) V A); auto; try exact I; eexists; split; reflexivity.
  - split; [reflexivity|]. intros i fs2 E. destruct i; discriminate.
Qed.
Lemma atall_app full ad ad' (os os' : list (option obj1)) h : atall full ad os h -> atall full ad' os' h ->
  atall full (ad ++ ad')%list (os ++ os')%list h.
Proof.
  revert os. induction ad as [|a ad IH]; intros [|o os] H H'; cbn in *; try tauto.
  split; [apply H|]. apply IH; [apply H|exact H'].
Qed.
Lemma pre6_get V A fs l2 vold vnew u h full : mats_in l2 V -> this_in fs V A ->
  atall full (body_addrs A) (pre6 V fs l2 vold vnew u) h -> body V A vold vnew u h.
Proof.
  intros MI TI AT. unfold pre6, body_addrs in AT. cbn -[this_flds ro] in AT.
  destruct AT as ((o0 & M0 & R0) & (o1 & M1 & R1') & (o2 & M2 & R2) & (o3 & M3 & R3) & (o4 & M4 & R4) &
      (o5 & M5 & R5) & _).
  cbn [ro] in *. destruct R0 as (-> & _). destruct R2 as (-> & _). subst. exists fs, l2. auto 10.
Qed.
Lemma atall_split full ad : forall ad' (os os' : list (option obj1)) h, List.length ad = List.length os ->
  atall full (ad ++ ad')%list (os ++ os')%list h -> atall full ad os h /\ atall full ad' os' h.
Proof.
  induction ad as [|a ad IH]; intros ad' [|o os] os' h L H; cbn in *; try discriminate; [auto|].
  destruct H as (H1 & H2). apply IH in H2; [|congruence]. tauto.
Qed.

Theorem get_elem_rhs3D_text V A vold vnew u h k bb bl ab fl ex ey ez be nl vnew' :
  v_dim V = 3 -> NoDup (body_addrs A ++ [bb; bl])%list ->
  Forall (fun a => a < k) (body_addrs A ++ [bb; bl])%list -> body V A vold vnew u h ->
  h bb = Some (OD ab) -> alen ab = 24 -> h bl = Some (OI fl) -> alen fl = 1 ->
  get_elem_rhs3D V u vold vnew ex ey ez = Ok (be, nl, vnew') ->
  exists st ab' fl',
    calls asm_prog "get_elem_rhs3D"
      [VP (a_this A) 0; VI ex; VI ey; VI ez; VP bl 0; VP bb 0] h k (Ok (st, Nrm)) /\
    body V A vold vnew' u (mem st) /\
    mem st bb = Some (OD ab') /\ vec 24 ab' be /\
    mem st bl = Some (OI fl') /\ alen fl' = 1 /\ aget fl' 0 = Some (if nl then 1 else 0) /\
    frame h (mem st) k [bb; bl; a_vn A] /\ k <= nxt st.
Proof.
  intros D3 ND FK (fs & l2 & B0 & B1 & B2' & B3' & B4 & B5 & B6 & B7) HB LB HL LL M.
  destruct (rhs_foldM V u vold ex ey ez [Wt V fs]
    (Wok V fs (this_flds 3 (v_type V) V (ptr 1) (ptr 2) (ptr 3) (ptr 4) (ptr 5) None None None None None) (v_etype V) l2)
    (conj (ex_intro _ A B1) I)) with (3 := M) as (EQ & AL).
  { split; [exists A; exact B1|]. splits; assumption || reflexivity. }
  { apply Forall_forall. intros x I. now apply in_zrange in I. }
  set (ad := (body_addrs A ++ [bb; bl])%list) in *.
  destruct (calls_out asm_prog _ (SM2_ok V D3) "get_elem_rhs3D" ast_get_elem_rhs3D
    [VP 0 0; VI ex; VI ey; VI ez; VP 7 0; VP 6 0] [VP (a_this A) 0; VI ex; VI ey; VI ez; VP bl 0; VP bb 0]
    _ ad (pre6 V fs l2 vold vnew u ++ [Some (D1 (nc 24)); Some (I1 (nc 1))])%list h k 100 [] _ _
    (rhs_run V (Wt V) (Wok V) (B3 V) (get_strain3D V) (get_stress3D V) u vold ex ey ez fs l2 vnew)
    eq_refl eq_refl) as (l & st & C & AT & (K1' & K2')).
  - exact AL.
  - exact ND.
  - exact FK.
  - repeat constructor; eexists; split; reflexivity.
  - change ad with (body_addrs A ++ [bb; bl])%list at 2. refine (atall_app _ _ _ _ _ _ _ _).
    { eapply pre6_at; eauto. reflexivity. }
    cbn -[nc]. split; [|split; [|exact I]].
    + exists (OD ab). split; [exact HB|]. exists ab. split; [reflexivity|]. now apply nc_cells.
    + exists (OI fl). split; [exact HL|]. exists fl. split; [reflexivity|]. now apply nc_cells.
  - unfold rhs_end in AT. rewrite <- EQ in AT. cbn [fst snd] in AT.
    apply atall_split in AT; [|reflexivity]. destruct AT as (AT1 & AT2). cbn -[fc] in AT2.
    destruct AT2 as ((o1 & M1 & (ab' & -> & R1')) & (o2 & M2 & (fl' & -> & R2)) & _).
    apply vec_cells in R1'. apply one_cells in R2.
    assert (BD := pre6_get _ A _ _ _ _ _ _ _ B4 B1 AT1).
    exists st, ab', fl'. split; [exact C|]. split; [exact BD|]. split; [exact M1|]. split; [exact R1'|].
    split; [exact M2|]. split; [apply R2|]. split; [apply R2|]. split; [|exact K1'].
    intros c LC N. destruct (in_dec Z.eq_dec c ad) as [IN|IN]; [|now apply K2'].
    clear -IN N AT1 B0 B2' B3' B5 B7. unfold pre6, body_addrs in AT1. cbn -[this_flds ro] in AT1.
    destruct AT1 as ((o0 & Q0 & R0) & (o1 & Q1 & R1') & (o2 & Q2 & R2) & (o3 & Q3 & R3) & (o4 & Q4 & R4) &
      (o5 & Q5 & R5) & _). cbn [ro] in *. destruct R0 as (-> & _). destruct R2 as (-> & _). subst.
    cbn in IN, N. repeat destruct IN as [IN|IN]; try subst c; try tauto; congruence.
Qed.
End Asm.
