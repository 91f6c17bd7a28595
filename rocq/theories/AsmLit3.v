(** The syntax trees of src/assembly.cpp against the model: calc_bmat_3D, getElemDisp and
    get_strain3D, and the summaries of these functions and of get_stress3D. *)
From Coq Require Import String.
From Verif Require Import Base Scalar Clite CliteRules EllAst AsmAst Sym Grid EllModel AssemblyModel AsmLit AsmLit2.
Local Open Scope string_scope.
Local Open Scope Z_scope.

Section Asm.
Context {T : Type} `{OT : Ops T}.
Notation val := (@val T). Notation obj := (@obj T). Notation obj1 := (@obj1 T).
Notation fields := (list (string * option val)).

(** ** calc_bmat_3D *)
Definition bm_cell (V : env T) (gp q : Z) : T := B3 V gp (q / 24) (q mod 24).
Definition bm_world V (fs : fields) (o : obj1) : list (option obj1) :=
  [Some (R1 fs (this_flds 3 (v_type V) V None None None None None None None None None None)); Some o].
Lemma bm_run V fs gp : 0 <= gp < 8 ->
  out 2 (exec1 asm_prog noSM 200 (f_body ast_calc_bmat_3D)
    (mk1 [("this", VP 0 0); ("gp", VI gp); ("bmat", VP 1 0)] (bm_world V fs (D1 (nc 144)))) []) =
  Some (bm_world V fs (D1 (fc 144 (bm_cell V gp))), []).
Proof.
  intros G. assert (C : In gp (zrange 0 8)) by (apply in_zrange; exact G).
  cbn in C. repeat destruct C as [<-|C]; try contradiction; vmr.
Qed.

Theorem calc_bmat_3D_text V A fs h k bt bb ab gp : v_dim V = 3 -> 0 <= gp < 8 ->
  bt <> bb -> bt < k -> bb < k -> h bt = Some (OS fs) -> this_in fs V A ->
  h bb = Some (OD ab) -> alen ab = 144 ->
  exists st ab', calls asm_prog "calc_bmat_3D" [VP bt 0; VI gp; VP bb 0] h k (Ok (st, Nrm)) /\
    mem st bb = Some (OD ab') /\ cells ab' (fc 144 (bm_cell V gp)) /\
    frame h (mem st) k [bb] /\ k <= nxt st.
Proof.
  intros D3 G NB LT LB HT TI HB LA.
  destruct (calls_out asm_prog noSM noSM_ok "calc_bmat_3D" ast_calc_bmat_3D
    [VP 0 0; VI gp; VP 1 0] [VP bt 0; VI gp; VP bb 0] _ [bt; bb] _ h k _ _ _ _ (bm_run V fs gp G)
    eq_refl eq_refl I) as (l & st & C & AT & (K1' & K2')).
  - constructor; [cbn; intros [E|[]]; congruence|]. constructor; [intros []|constructor].
  - auto.
  - repeat constructor; eexists; split; reflexivity.
  - cbn -[fc nc this_flds]. splits; try exact I; (eexists; split; [eassumption|]).
    + split; [reflexivity|]. apply (this_rfs _ fs 3 (v_type V) V A); auto; exact I.
    + eexists. split; [reflexivity|]. now apply nc_cells.
  - cbn -[fc nc this_flds] in AT.
    destruct AT as ((o0 & M0 & -> & _) & (o1 & M1 & (ab' & -> & R1')) & _).
    exists st, ab'. split; [exact C|]. split; [exact M1|]. split; [exact R1'|]. split; [|exact K1'].
    intros c LC N. cbn in N. destruct (Z.eq_dec c bt) as [->|]; [congruence|].
    apply K2'; [exact LC|]. cbn. intuition congruence.
Qed.

(** ** Summaries *)
Lemma msim_ext ad (m : list (option obj1)) h h' k k' : msim ad m h k -> k <= k' -> (forall c, In c ad -> h' c = h c) ->
  msim ad m h' k'.
Proof.
  intros (H1 & H2 & H3 & H4) LE E. split; [|split; [exact H2|split; [exact H3|]]].
  - intros b o a O A. destruct (H1 _ _ _ O A) as (o2 & M & R). exists o2. split; [|exact R].
    rewrite E; [exact M|]. eapply at1_in; eauto.
  - intros a I. apply H4 in I. lia.
Qed.
Lemma at1_NoDup (ad is as_ : list Z) : NoDup ad -> NoDup is ->
  Forall2 (fun i a => at1 ad i = Some a) is as_ -> NoDup as_.
Proof.
  intros ND NI F. induction F as [|i a is as_ H F IH]; [constructor|]. inversion NI; subst.
  constructor; [|auto]. intros I. apply H2. clear -I H F ND.
  induction F as [|j b is as_ J F IH]; [contradiction|]. destruct I as [<-|I]; [left|right; auto].
  eapply at1_inj; eauto.
Qed.
Lemma msim_at ad (m : list (option obj1)) h k b o : msim ad m h k -> at1 m b = Some (Some o) ->
  exists a o2, at1 ad b = Some a /\ a < k /\ In a ad /\ h a = Some o2 /\ ro ad o o2.
Proof.
  intros (H1 & H2 & H3 & H4) B. pose proof (at1_lt _ _ _ B) as R.
  destruct (at1_some ad b) as (a & A); [lia|]. destruct (H1 _ _ _ B A) as (o2 & M & Q).
  exists a, o2. split; [exact A|]. pose proof (at1_in _ _ _ A). auto.
Qed.

Record upd := mkUpd { u_b : Z; u_a : Z; u_o : obj1; u_o2 : obj }.
Lemma msim_upds ad h' k' (l : list upd) : forall (m : list (option obj1)) h k, msim ad m h k -> k <= k' ->
  Forall (fun x => at1 ad (u_b x) = Some (u_a x) /\ ro ad (u_o x) (u_o2 x) /\ h' (u_a x) = Some (u_o2 x)) l ->
  frame h h' k (map u_a l) ->
  msim ad (fold_left (fun m x => repl1 (Z.to_nat (u_b x)) (Some (u_o x)) m) l m) h' k'.
Proof.
  induction l as [|x l IH]; intros m h k SIM LE F FR; cbn [fold_left].
  - eapply msim_ext; [exact SIM|exact LE|]. intros c I. apply FR; [|intros []].
    destruct SIM as (_ & _ & _ & H4). auto.
  - inversion F as [|? ? (X1 & X2 & X3) F']; subst.
    eapply (IH _ (fun c => if c =? u_a x then Some (u_o2 x) else h c) k); [|exact LE|exact F'|].
    + apply msim_put; assumption.
    + intros c LC N. cbn beta. destruct (Z.eqb_spec c (u_a x)) as [->|NE]; [exact X3|].
      apply FR; [exact LC|]. cbn. intros [E|E]; [congruence|auto].
Qed.

(** calc_bmat_3D in a run whose object 0 is the micropp_t of [V] *)
Definition sm_bmatg (W : fields -> Prop) (B : Z -> Z -> Z -> T) : @summary T := fun m vs =>
  match m, vs with
  | Some (R1 fs _) :: _, [VP 0 0; VI gp; VP b 0] =>
      match at1 m b with
      | Some (Some (D1 l)) =>
          if Nat.eqb (List.length l) 144 && negb (b =? 0) then
            bind1 (when1 (0 <= gp < 8) tt) (fun _ =>
            bind1 (when1 (W fs) tt) (fun _ =>
              ret1 (repl1 (Z.to_nat b) (Some (D1 (fc 144 (fun q => B gp (q / 24) (q mod 24))))) m)))
          else none1
      | _ => none1
      end
  | _, _ => none1
  end.
Definition Wt (V : env T) (fs : fields) : Prop := exists A, this_in fs V A.
Definition sm_bmat (V : env T) : @summary T := sm_bmatg (Wt V) (B3 V).
Lemma sm_bmat_ok V : v_dim V = 3 -> sum_ok asm_prog "calc_bmat_3D" (sm_bmat V).
Proof.
  intros D3 m vs q m' q2 p ad h k vs2 E AL SIM R. unfold sm_bmat, sm_bmatg in E.
  destruct m as [|[[| |?|fs f1| | | | | |]|] mt] eqn:EM; try discriminate.
  destruct vs as [|[| |b0 o0|] [|[gp| | |] [|[| |b ob|] [|]]]]; try discriminate;
    destruct b0; try discriminate; destruct o0; try discriminate; destruct ob; try discriminate.
  rewrite <- EM in *.
  destruct (at1 m b) as [[[l| | | | | | | | |]|]|] eqn:MB; try discriminate.
  destruct (Nat.eqb_spec (List.length l) 144) as [LL|]; [|discriminate].
  destruct (Z.eqb_spec b 0) as [|NB]; [discriminate|]. cbn [negb andb] in E.
  unfold when1, bind1, ret1 in E. injection E as <- <- <-. destruct AL as (GP & (A & TI) & _).
  destruct (msim_at _ _ _ _ 0 (R1 fs f1) SIM) as (at_ & o2 & A0 & L0 & I0 & H0 & (-> & _)).
  { rewrite EM. reflexivity. }
  destruct (msim_at _ _ _ _ _ _ SIM MB) as (ab & o3 & Ab & Lb & Ib & Hb & (aa & -> & CB)).
  inversion R as [|? ? ? ? R1' R2]; subst. inversion R2 as [|? ? ? ? R3 R4]; subst.
  inversion R4 as [|? ? ? ? R5 R6]; subst. inversion R6; subst. clear R R2 R4 R6.
  destruct R1' as (x & X & ->). cbn in R3. subst. destruct R5 as (y & Y & ->).
  assert (x = at_) by congruence. assert (y = ab) by congruence. subst x y.
  destruct (calc_bmat_3D_text V A fs h k at_ ab aa gp D3 GP) as (st & ab' & C & M & CE & FR & KN); auto.
  { intros ->. apply NB. symmetry. destruct SIM as (_ & _ & ND & _). eapply at1_inj; eauto. }
  { destruct CB as (LB & _). rewrite LB, LL. reflexivity. }
  exists st, Nrm. split; [exact C|]. split; [discriminate|]. split.
  - apply (msim_upds ad (mem st) (nxt st) [mkUpd b ab (D1 (fc 144 (bm_cell V gp))) (OD ab')] _ h k); auto.
    constructor; [|constructor]. cbn -[fc]. split; [exact Ab|]. split; [eauto|exact M].
  - split; [exact KN|]. intros c LC N. apply FR; [exact LC|]. cbn. intros [<-|[]]. auto.
Qed.

(** ** get_strain3D *)
Definition SM1 (V : env T) : string -> option (@summary T) :=
  fun f => if String.eqb f "calc_bmat_3D" then Some (sm_bmat V) else None.
Lemma SM1_ok V : v_dim V = 3 -> forall f sm, SM1 V f = Some sm -> sum_ok asm_prog f sm.
Proof.
  intros D3 f sm. unfold SM1. destruct (String.eqb_spec f "calc_bmat_3D"); [|discriminate].
  intros [= <-]. subst f. now apply sm_bmat_ok.
Qed.

Definition sn_world V (fs : fields) (u : arr T) (uf : Z -> T) (o : obj1) : list (option obj1) :=
  [Some (R1 fs (this_flds 3 (v_type V) V None None None None (ptr 1) None None None None None));
   Some (F1 u uf); Some o].
Definition ux3 (V : env T) (ex ey ez i : Z) : Z :=
  znth (sn3 (v_nx V) (v_ny V) ex ey ez) (i / 3) * 3 + i mod 3.
Lemma sn_run V fs u uf ex ey ez gp :
  out 3 (exec1 asm_prog (SM1 V) 100 (f_body ast_get_strain3D)
    (mk1 [("this", VP 0 0); ("ex", VI ex); ("ey", VI ey); ("ez", VI ez); ("gp", VI gp); ("strain_gp", VP 2 0)]
       (sn_world V fs u uf (D1 (nc 6)))) []) =
  Some (sn_world V fs u uf (D1 (fc 6 (lget (strain_of 6 24 (B3 V gp)
          (map (fun i => uf (ux3 V ex ey ez i)) (zrange 0 24)))))),
        flat_map (fun d => map (fun n => rd u (ux3 V ex ey ez (n * 3 + d)) = Ok (uf (ux3 V ex ey ez (n * 3 + d))))
                     (zrange 0 8)) (zrange 0 3)
        ++ [0 <= gp < 8; Wt V fs])%list.
Proof. vmr. Qed.

Theorem get_strain3D_text V A fs u h k bt bu bs as_ ex ey ez gp eps : v_dim V = 3 -> 0 <= gp < 8 ->
  NoDup [bt; bu; bs] -> Forall (fun a => a < k) [bt; bu; bs] ->
  h bt = Some (OS fs) -> this_in fs V A -> bu = a_u A -> h bu = Some (OD u) ->
  h bs = Some (OD as_) -> alen as_ = 6 ->
  get_strain3D V u ex ey ez gp = Ok eps ->
  exists st as', calls asm_prog "get_strain3D" [VP bt 0; VI ex; VI ey; VI ez; VI gp; VP bs 0] h k (Ok (st, Nrm)) /\
    mem st bs = Some (OD as') /\ vec 6 as' eps /\ frame h (mem st) k [bs] /\ k <= nxt st.
Proof.
  intros D3 G ND FK HT TI EU HU HS LS M. unfold get_strain3D in M. apply bind_ok in M.
  destruct M as (ed & ME & M). injection M as <-.
  destruct (mapM_map _ (fun i => rdv u (ux3 V ex ey ez i)) _ _ ME) as (-> & RD).
  { intros x y _ E. now apply rdv_ok. }
  destruct (calls_out asm_prog (SM1 V) (SM1_ok V D3) "get_strain3D" ast_get_strain3D
    [VP 0 0; VI ex; VI ey; VI ez; VI gp; VP 2 0] [VP bt 0; VI ex; VI ey; VI ez; VI gp; VP bs 0]
    _ [bt; bu; bs] (sn_world V fs u (rdv u) (D1 (nc 6))) h k 100 [] _ _ (sn_run V fs u (rdv u) ex ey ez gp)
    eq_refl eq_refl) as (l & st & C & AT & (K1' & K2')).
  - apply alls_in. intros p I. apply in_app_iff in I. destruct I as [I|[<-|[<-|[]]]]; [|exact G|exists A; exact TI].
    apply in_flat_map in I. destruct I as (d & D & I). apply in_map_iff in I. destruct I as (n & <- & I).
    apply in_zrange in D, I. apply RD. apply in_zrange. lia.
  - exact ND.
  - exact FK.
  - repeat constructor; eexists; split; reflexivity.
  - cbn -[fc nc this_flds]. splits; try exact I; (eexists; split; [eassumption|]); try reflexivity.
    + split; [reflexivity|]. apply (this_rfs _ fs 3 (v_type V) V A); auto; try exact I.
      subst bu. eexists. split; reflexivity.
    + eexists. split; [reflexivity|]. now apply nc_cells.
  - cbn -[fc nc this_flds strain_of] in AT.
    destruct AT as ((o0 & M0 & -> & _) & (o1 & M1 & ->) & (o2 & M2 & (as' & -> & R1')) & _).
    exists st, as'. split; [exact C|]. split; [exact M2|]. split; [now apply vec_cells|]. split; [|exact K1'].
    intros c LC N. cbn in N. destruct (Z.eq_dec c bt) as [->|]; [congruence|].
    destruct (Z.eq_dec c bu) as [->|]; [congruence|].
    apply K2'; [exact LC|]. cbn. intuition congruence.
Qed.
End Asm.
