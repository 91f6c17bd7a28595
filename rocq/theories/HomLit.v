(** The syntax trees of src/homogenize.cpp against the model: the sequence set_displ, newton_raphson,
    calc_ave_stress, and calc_ctan_lin. *)
From Coq Require Import String FMapPositive.
From Verif Require Import Base Scalar MicroModel Clite CliteRules EllAst AsmAst HomAst Sym SymStep Grid EllModel AssemblyModel
  EllLit EllLit2 EllLit6 EllLit7 SymFold AsmCalls AsmPure AsmLit AsmLit2 AsmLit13 AsmLit14 AsmLit15 AsmLit16 AsmLit18 AsmLit19 AsmLit22 AsmLit28.
Local Open Scope string_scope.
Local Open Scope Z_scope.

Section Hom.
Context {T : Type} `{OT : Ops T}.
Notation state := (@state T).
Notation obj := (@obj T).
Notation val := (@val T).
Notation work := (MicroModel.work T).

Lemma asm_in_hom f d : asm_prog f = Some d -> hom_prog f = Some d.
Proof.
  intros E. unfold hom_prog.
  destruct (String.eqb_spec f "calc_ctan_lin"); [subst f; discriminate E|].
  destruct (String.eqb_spec f "is_linear"); [subst f; discriminate E|].
  destruct (String.eqb_spec f "get_inv_1"); [subst f; discriminate E|].
  destruct (String.eqb_spec f "get_inv_2"); [subst f; discriminate E|]. exact E.
Qed.
Lemma calls_asm f vs h k (r : state * sig) : calls asm_prog f vs h k (Ok r) -> calls hom_prog f vs h k (Ok r).
Proof. apply calls_mono. exact asm_in_hom. Qed.

(** the int behind [its] is alone *)
Definition alone : peek := fun _ => Err OOB.
Lemma rd_alone j : 1 <= j -> rd (malloc 1 : arr Z) j = Err OOB.
Proof. intros H. unfold rd, inb. cbn [alen malloc]. replace (j <? 1) with false by lia. now rewrite andb_false_r. Qed.
Lemma newton_loop_alone V fuel : forall j (w : work), 0 <= j -> newton_loop fuel (rd (malloc 1)) V 0 j w = newton_loop fuel alone V 0 j w.
Proof.
  induction fuel as [|fuel IH]; intros j w J; [reflexivity|]. cbn [newton_loop].
  destruct (newton_body V w) as [[[[w1 nl] er] brk]|]; [|reflexivity]. cbn [bind]. destruct brk; [reflexivity|]. cbv zeta.
  destruct (Z.eqb_spec (j + 1) 0); [lia|]. rewrite rd_alone by lia. reflexivity.
Qed.
Lemma newton_alone V fuel (w : work) : newton fuel (rd (malloc 1)) V w = newton fuel alone V w.
Proof. apply newton_loop_alone. lia. Qed.

(** calc_ave_stress in both dimensions *)
Lemma ave_any V A vold vnew u h k bs as_ s vnew' : v_dim V = 2 \/ v_dim V = 3 ->
  NoDup (body_addrs A ++ [bs])%list -> Forall (fun a => a < k) (body_addrs A ++ [bs])%list ->
  body V A vold vnew u h -> h bs = Some (OD as_) -> alen as_ = 6 ->
  calc_ave_stress V u vold vnew = Ok (s, vnew') ->
  exists st as', calls asm_prog "calc_ave_stress" [VP (a_this A) 0; VP bs 0] h k (Ok (st, Nrm)) /\
    body V A vold vnew' u (mem st) /\ mem st bs = Some (OD as') /\ alen as' = 6 /\ pvec (nvoi V) as' s /\
    frame h (mem st) k [a_vn A; bs] /\ k <= nxt st.
Proof.
  intros [D|D] ND FK BD HS LS E.
  - destruct (calc_ave_stress2D_text V A vold vnew u h k bs as_ s vnew' D ND FK BD HS LS E) as (st & as' & C & -> & B & M & L & G & FR & K).
    exists st, as'. unfold nvoi. rewrite D. change (2 =? 2) with true. cbv iota. splits; auto. intros c LC N. apply FR; [exact LC|]. cbn in N |- *. tauto.
  - destruct (calc_ave_stress_text V A vold vnew u h k bs as_ s vnew' D ND FK BD HS LS E) as (st & as' & C & B & M & (L & G) & FR & K).
    exists st, as'. unfold nvoi. rewrite D. change (3 =? 2) with false. cbv iota. splits; auto.
Qed.

(** ** set_displ, newton_raphson, calc_ave_stress: src/homogenize.cpp:40-42 *)
Section Respond.
Variables (V : env T) (P : place) (bc bv bl bi be ep sg k : Z) (h : Z -> option obj) (w : work) (fl i0 : arr Z) (ea ae as_ : arr T) (eps : list T).
Hypothesis DD : v_dim V = 2 \/ v_dim V = 3.
Hypothesis Z0 : dec 0 1 = (ofZ 0 : T).
Hypothesis ND : NoDup (nr_addrs P bc bv bl bi be ++ [ep; sg])%list.
Hypothesis FK : Forall (fun a => a < k) (nr_addrs P bc bv bl bi be ++ [ep; sg])%list.
Hypothesis BL : blank_from h k.
Hypothesis WH : whole V P bc bv w h.
Hypothesis HF : h bl = Some (OI fl).
Hypothesis LF : alen fl = 1.
Hypothesis HI : h bi = Some (OI i0).
Hypothesis LI : 0 < alen i0.
Hypothesis HE : h be = Some (OD ea).
Hypothesis LE : 0 < alen ea.
Hypothesis HEP : h ep = Some (OD ae).
Hypothesis LEP : alen ae = 6.
Hypothesis GEP : pvec (nvoi V) ae eps.
Hypothesis HSG : h sg = Some (OD as_).
Hypothesis LSG : alen as_ = 6.

Lemma displ_part u' : set_displ V eps (w_u w) = Ok u' ->
  exists st, calls asm_prog "set_displ" [VP (a_this P) 0; VP ep 0] h k (Ok (st, Nrm)) /\
    whole V P bc bv (set_u w u') (mem st) /\ frame h (mem st) k [a_u P] /\ blank_from (mem st) (nxt st) /\ k <= nxt st.
Proof.
  intros E. pose proof FK as L. cbn in L. lt_all L.
  destruct WH as (BD & MA & HB & HD). pose proof BD as (fs & l2 & B0 & B1 & _ & _ & _ & _ & _ & B7).
  assert (N1 : NoDup [a_this P; a_u P; ep]) by (repeat (constructor; [nin|]); constructor).
  assert (F1 : Forall (fun a => a < k) [a_this P; a_u P; ep]) by (repeat (constructor; [lia|]); constructor).
  assert (G1 : forall i, 0 <= i < (if v_dim V =? 3 then 6 else 3) -> aget ae i = Some (lget eps i)).
  { intros i Hi. apply GEP. unfold nvoi. destruct DD as [D|D]; rewrite D in *; exact Hi. }
  destruct (set_displ_text V P fs eps (w_u w) u' ae h k ep ltac:(tauto) Z0 N1 F1 B0 B1 B7 HEP LEP G1 E) as (st & C & M & FR & KN).
  destruct (calls_grows asm_prog _ _ _ _ _ _ C BL) as (CL & _).
  exists st. splits; auto. unfold whole, set_u. cbn [w_u w_vold w_vnew w_A w_b w_du]. splits.
  - eapply body_u; [|exact M|exact BD]. intros c I. apply FR; [cbn in I; repeat (destruct I as [<-|I]); [lia ..|contradiction]|].
    intros [Q|[]]; revert Q; apply not_eq_sym; nei.
  - apply (mat_ext h); [apply FR; [lia|nin] ..|exact MA].
  - rewrite FR; [exact HB|lia|nin].
  - rewrite FR; [exact HD|lia|nin].
Qed.

Theorem respond_text fuel w' nl it er s : respond fuel (rd i0) V eps w = Ok (w', nl, it, er, s) ->
  exists st1 st2 st3 fl' as', calls asm_prog "set_displ" [VP (a_this P) 0; VP ep 0] h k (Ok (st1, Nrm)) /\
    calls asm_prog "newton_raphson" [VP (a_this P) 0; VP bl 0; VP bi 0; VP be 0] (mem st1) (nxt st1) (Ok (st2, Nrm)) /\
    calls asm_prog "calc_ave_stress" [VP (a_this P) 0; VP sg 0] (mem st2) (nxt st2) (Ok (st3, Nrm)) /\
    whole V P bc bv w' (mem st3) /\ mem st3 sg = Some (OD as') /\ alen as' = 6 /\ pvec (nvoi V) as' s /\
    mem st3 bl = Some (OI fl') /\ aget fl' 0 = Some (if nl then 1 else 0) /\
    frame h (mem st3) k (nr_touch P bv bl bi be ++ [sg])%list /\ blank_from (mem st3) (nxt st3) /\ k <= nxt st3.
Proof.
  intros E. unfold respond in E. apply bind_ok in E. destruct E as (u' & E1 & E). apply bind_ok in E.
  destruct E as ([[[w1 nl1] it1] er1] & E2 & E). apply bind_ok in E. destruct E as ((s1 & vn1) & E3 & E). cbn [fst snd] in E.
  injection E as <- <- <- <- <-.
  destruct (displ_part u' E1) as (st1 & C1 & W1 & FR1 & BL1 & K1).
  pose proof FK as L. cbn in L. lt_all L.
  assert (N2 : NoDup (nr_addrs P bc bv bl bi be)) by (cbn; repeat (constructor; [nin|]); constructor).
  assert (F2 : Forall (fun a => a < nxt st1) (nr_addrs P bc bv bl bi be)) by (cbn; repeat (constructor; [lia|]); constructor).
  assert (X1 : mem st1 bl = Some (OI fl)) by (rewrite FR1; [exact HF|lia|nin]).
  assert (X2 : mem st1 bi = Some (OI i0)) by (rewrite FR1; [exact HI|lia|nin]).
  assert (X3 : mem st1 be = Some (OD ea)) by (rewrite FR1; [exact HE|lia|nin]).
  destruct (newton_text V P bc bv bl bi be (nxt st1) (mem st1) (set_u w u') fl i0 ea DD Z0 N2 F2 BL1 W1 X1 LF X2 LI X3 LE _ _ _ _ _ E2)
    as (st2 & fl2 & ia2 & ea2 & C2 & W2 & M2 & G2 & _ & _ & _ & _ & FR2 & BL2 & K2).
  destruct W2 as (B2 & MA2 & HB2 & HD2).
  assert (N3 : NoDup (body_addrs P ++ [sg])%list) by (cbn; repeat (constructor; [nin|]); constructor).
  assert (F3 : Forall (fun a => a < nxt st2) (body_addrs P ++ [sg])%list) by (cbn; repeat (constructor; [lia|]); constructor).
  assert (X4 : mem st2 sg = Some (OD as_)) by (rewrite FR2; [|lia|nin]; rewrite FR1; [exact HSG|lia|nin]).
  destruct (ave_any V P _ _ _ (mem st2) (nxt st2) sg as_ s1 vn1 DD N3 F3 B2 X4 LSG E3) as (st3 & as' & C3 & B3 & M3 & L3 & G3 & FR3 & K3).
  destruct (calls_grows asm_prog _ _ _ _ _ _ C3 BL2) as (CL3 & _).
  exists st1, st2, st3, fl2, as'. splits; auto; try lia.
  - unfold whole, set_vnew. cbn [w_u w_vold w_vnew w_A w_b w_du]. splits.
    + exact B3.
    + apply (mat_ext (mem st2)); [apply FR3; [lia|nin] ..|exact MA2].
    + rewrite FR3; [exact HB2|lia|nin].
    + rewrite FR3; [exact HD2|lia|nin].
  - rewrite FR3; [exact M2|lia|nin].
  - intros c LC N. rewrite FR3; [rewrite FR2; [apply FR1; [exact LC|]|lia|]|lia|]; cbn in N |- *; tauto.
Qed.
End Respond.
End Hom.
