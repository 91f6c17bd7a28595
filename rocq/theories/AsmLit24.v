(** The syntax trees of src/assembly.cpp against the model: assembly_rhs for two dimensions. *)
From Coq Require Import String.
From Verif Require Import Base Scalar Clite CliteRules EllAst AsmAst Sym SymStep SymFold Grid EllModel AssemblyModel
  EllLit2 AsmLit AsmLit2 AsmLit3 AsmLit4 AsmLit5 AsmLit6 AsmLit7 AsmLit8 AsmLit10 AsmLit11 AsmLit12 AsmLit13 AsmLit22.
Local Open Scope string_scope.
Local Open Scope Z_scope.

Section Asm.
Context {T : Type} `{OT : Ops T}.
Notation val := (@val T). Notation obj := (@obj T). Notation obj1 := (@obj1 T).
Notation fields := (list (string * option val)).
Notation SM0 := (fun _ : string => @None (@summary T)).

(** ** summary of get_elem_rhs2D *)
Definition rhs_res2 : Type := res (list T * bool).
Definition p_be (r : rhs_res2) : list T := match r with Ok (b, _) => b | Err _ => [] end.
Definition p_nl (r : rhs_res2) : bool := match r with Ok (_, n) => n | Err _ => false end.
Definition sm_rhs2 (W : fields -> fields -> arr Z -> list fields -> Prop)
  (gr : arr T -> Z -> Z -> rhs_res2) : @summary T := fun m vs =>
  match pref m, vs with
  | Some (fs, f1, et, l2, vo, vn, u), [VP 0 0; VI ex; VI ey; VP bl 0; VP bb 0] =>
      match at1 m bl, at1 m bb with
      | Some (Some (I1 ll)), Some (Some (D1 lb)) =>
          if Nat.eqb (List.length ll) 1 && Nat.eqb (List.length lb) 8 && (6 <=? bl) && (6 <=? bb) then
            bind1 (when1 (W fs f1 et l2) tt) (fun _ =>
            let r := gr u ex ey in
            bind1 (when1 (r = Ok (p_be r, p_nl r)) tt) (fun _ =>
            bind1 (ask1 (p_nl r)) (fun d =>
              ret1 (repl1 (Z.to_nat bb) (Some (D1 (fc 8 (lget (p_be r)))))
                   (repl1 (Z.to_nat bl) (Some (I1 [Some (if d then 1 else 0)])) m)))))
          else none1
      | _, _ => none1
      end
  | _, _ => none1
  end.

Lemma sm_rhs2_ok V : v_dim V = 2 -> sum_ok asm_prog "get_elem_rhs2D" (sm_rhs2 (Wok V) (get_elem_rhs2D V)).
Proof.
  intros D2 m vs q m' q2 p ad h k vs2 E AL SIM R. unfold sm_rhs2 in E.
  destruct (pref m) as [[[[[[[fs f1] et] l2] vo] vn] u]|] eqn:PF; [|discriminate].
  destruct vs as [|[| |b0 o0|] vs]; try discriminate E.
  destruct b0; try discriminate E; destruct o0; try discriminate E.
  destruct vs as [|[ex| | |] vs]; try discriminate E.
  destruct vs as [|[ey| | |] vs]; try discriminate E.
  destruct vs as [|[| |bl ol|] vs]; try discriminate E.
  destruct ol; try discriminate E.
  destruct vs as [|[| |b ob|] vs]; try discriminate E.
  destruct ob; try discriminate E. destruct vs; try discriminate E.
  destruct (at1 m bl) as [[[|ll| | | | | | | |]|]|] eqn:ML; try discriminate.
  destruct (at1 m b) as [[[l| | | | | | | | |]|]|] eqn:MB; try discriminate.
  destruct (Nat.eqb_spec (List.length ll) 1) as [L1|]; [|discriminate].
  destruct (Nat.eqb_spec (List.length l) 8) as [LL|]; [|discriminate].
  destruct (Z.leb_spec 6 bl) as [NL|]; [|discriminate].
  destruct (Z.leb_spec 6 b) as [NB|]; [|discriminate]. cbn [andb] in E. cbv zeta in E.
  set (r := get_elem_rhs2D V u ex ey) in *.
  unfold when1, bind1, ret1, ask1 in E. destruct q as [|d q]; [discriminate|].
  injection E as <- <- <-. destruct AL as (WK & OK & DD & _).
  destruct (pref_body V _ _ _ _ _ _ _ _ _ _ _ PF SIM WK) as (A & BD & HT & TI & F6).
  destruct (msim_at _ _ _ _ _ _ SIM MB) as (ab & o3 & Ab & Lb & Ib & Hb & (aa & -> & CB)).
  destruct (msim_at _ _ _ _ _ _ SIM ML) as (al & o4 & Al & Ll & Il & Hl & (fl & -> & CL)).
  assert (ND : NoDup ad) by apply SIM. assert (LK : forall c, In c ad -> c < k) by apply SIM.
  assert (NBL : b <> bl) by congruence.
  assert (N7 : NoDup (body_addrs A ++ [ab; al])%list).
  { apply (at1_NoDup ad ([0; 1; 2; 3; 4; 5] ++ [b; bl])%list); [exact ND| |].
    - repeat constructor; cbn; lia.
    - apply Forall2_app; [exact F6|]. constructor; [exact Ab|constructor; [exact Al|constructor]]. }
  assert (K7 : Forall (fun a => a < k) (body_addrs A ++ [ab; al])%list).
  { apply Forall_app. split; [|repeat constructor; assumption]. clear -F6 LK.
    apply Forall_forall. intros a I.
    assert (J : exists i, at1 ad i = Some a).
    { induction F6 as [|i b x y H F IH]; [contradiction|]. destruct I as [<-|I]; eauto. }
    destruct J as (i & J). apply LK. eapply at1_in; eauto. }
  assert (X0 : at1 ad 0 = Some (a_this A)) by (inversion F6; assumption).
  repeat match goal with H : Forall2 (rvr ad) (_ :: _) _ |- _ => inversion H; clear H; subst end.
  match goal with H : Forall2 (rvr ad) [] _ |- _ => inversion H; clear H; subst end.
  repeat match goal with H : rvr ad (VI _) _ |- _ => cbn in H; subst end.
  repeat match goal with H : rvr ad (VP _ _) _ |- _ => let x := fresh "x" in let X := fresh "X" in destruct H as (x & X & ->) end.
  match goal with |- context [[VP ?x 0; VI _; VI _; VP ?z 0; VP ?y 0]] =>
    assert (x = a_this A) by congruence; assert (y = ab) by congruence; assert (z = al) by congruence; subst x y z end.
  destruct (get_elem_rhs2D_text V A vo vn u h k ab al aa fl ex ey (p_be r) (p_nl r) D2 N7 K7 BD Hb)
    as (st & ab' & fl' & C & BD' & M & CE & M2 & L2 & F2 & FR & KN); auto.
  { destruct CB as (LB & _). rewrite LB, LL. reflexivity. }
  { destruct CL as (LB & _). rewrite LB, L1. reflexivity. }
  exists st, Nrm. split; [exact C|]. split; [discriminate|]. split.
  - apply (msim_upds ad (mem st) (nxt st)
      [mkUpd bl al (I1 [Some (if p_nl r then 1 else 0)]) (OI fl');
       mkUpd b ab (D1 (fc 8 (lget (p_be r)))) (OD ab')] _ h k); [exact SIM|exact KN| |].
    2:{ intros c LC N. apply FR; [exact LC|]. intros I. apply N. cbn in *. tauto. }
    repeat constructor; try assumption; cbn -[fc].
    + eexists. split; [reflexivity|]. split; [exact L2|]. intros [|[|i]] v V'; cbn in V'; try discriminate.
      injection V' as <-. exact F2.
    + eexists. split; [reflexivity|]. apply vec_cells. exact CE.
  - split; [exact KN|]. intros c LC N. apply FR; [exact LC|]. cbn. intros [<-|[<-|[]]]; auto.
Qed.

(** ** the element loop *)
Definition as_2 : stmt := Eval cbv in match nth 5 as_list SSkip with SIf _ b _ => b | _ => SSkip end.
Definition as_list2 : list stmt := Eval cbv in unblock 5 as_2.
Definition el_list2 : list stmt := Eval cbv in unblock 14 (for_body (for_body (nth 1 as_list2 SSkip))).
Definition flds_b2 (V : env T) : fields :=
  this_flds 2 (v_type V) V (ptr 1) (ptr 2) (ptr 3) (ptr 4) (ptr 5) (ptr 6) None None None None.
Definition pr72 (V : env T) (fs : fields) l2 vold vnew u b : list (option obj1) :=
  [Some (R1 fs (flds_b2 V)); Some (K1 (v_etype V) 0); Some (V1 l2 []); Some (Opq vold); Some (Opq vnew); Some (Opq u);
   Some (Opq b)].

Section Gen.
Variable V : env T.
Variable W : fields -> fields -> arr Z -> list fields -> Prop.
Variable gr : arr T -> Z -> Z -> rhs_res2.
Definition SM42 : string -> option (@summary T) := fun f =>
  if String.eqb f "get_elem_rhs2D" then Some (sm_rhs2 W gr) else None.
Variables (u vold vn : arr T) (fs : fields) (l2 : list fields).

Definition e2_mem (b : arr T) (fl : Z) idx nle be : list (option obj1) :=
  (pr72 V fs l2 vold vn u b ++ [Some (I1 [Some fl]); Some (I1 idx); Some (I1 nle); Some (D1 be)])%list.
Definition e2_W (st : arr T * bool) : @st1 T :=
  mk1 el_env (e2_mem (fst st) (bz (snd st)) (nc 24) (nc 1) (nc 8)).
(** index[] of the element *)
Definition e2_idx (ex ey : Z) : Z -> Z := fun i =>
  let n := znth (sn2 (v_nx V) ex ey) (i / 2) * 2 in if i mod 2 =? 0 then n else n + 1.
Definition e2_idxs (ex ey : Z) : list (option Z) :=
  (map (fun i => Some (e2_idx ex ey (Z.of_nat i))) (seq 0 8) ++ nc 16)%list.
Definition e2_env2 (ex ey : Z) : list (string * val) := (("ey", VI ey) :: ("ex", VI ex) :: el_env).
Definition e2_names : list string := ["ey"; "ex"; "this"; "non_linear"; "index"; "non_linear_one_elem"; "be"].
Lemma e2_run ex ey (b : arr T) nl d : let r := gr u ex ey in
  cut3 11 e2_names (out3 (execs1 asm_prog SM42 100 (removelast el_list2)
    (mk1 (e2_env2 ex ey) (e2_mem b (bz nl) (nc 24) (nc 1) (nc 8))) [d])) =
  Some (mk1 (e2_env2 ex ey)
         (e2_mem b (if d then 1 else bz nl) (e2_idxs ex ey) [Some (bz d)] (fc 8 (lget (p_be r)))),
    [W fs (flds_b2 V) (v_etype V) l2; r = Ok (p_be r, p_nl r); p_nl r = d]).
Proof. destruct d; cbv zeta; vmr. Qed.
(** b[index[i]] += be[i] *)
Lemma e2_add ex ey b fl nle be i : 0 <= i < 8 ->
  let w b := mk1 (("i", VI i) :: e2_env2 ex ey) (e2_mem b fl (e2_idxs ex ey) nle (fc 8 (lget be))) in
  let a := e2_idx ex ey i in let v := oadd (rdv b a) (lget be i) in
  cut3 11 ("i" :: e2_names) (out3 (execs1 asm_prog SM42 9 [for_body (last el_list2 SSkip)] (w b) [])) =
  Some (w (wrv b a v), [rd b a = Ok (rdv b a); wr b a v = Ok (wrv b a v)]).
Proof.
  intros R. assert (I : In i (zrange 0 8)) by now apply in_zrange.
  change (zrange 0 8) with [0;1;2;3;4;5;6;7] in I. clear R. cbv zeta.
  repeat (destruct I as [<-|I]; [vmr|]). destruct I.
Qed.
Lemma e2_idx_eq ex ey i : znth (sn2 (v_nx V) ex ey) (i / 2) * 2 + i mod 2 = e2_idx ex ey i.
Proof.
  unfold e2_idx. cbv zeta. generalize (znth (sn2 (v_nx V) ex ey) (i / 2)). clear. intros x. pose proof (Z.mod_pos_bound i 2 ltac:(lia)). destruct (Z.eqb_spec (i mod 2) 0); lia.
Qed.

(** two stores of zero *)
Definition w2 (n : Z) (b : arr T) : arr T :=
  let z : T := ofZ 0 in wrv (wrv b (n * 2 + 0) z) (n * 2 + 1) z.
Definition c2 (n : Z) (b : arr T) : list Prop :=
  let z : T := ofZ 0 in let b1 := wrv b (n * 2 + 0) z in
  [wr b (n * 2 + 0) z = Ok b1; wr b1 (n * 2 + 1) z = Ok (wrv b1 (n * 2 + 1) z)].
Lemma zero_node_w2 n b b' : dec 0 1 = (ofZ 0 : T) -> run_stores (zero_node 2 n) b = Ok b' -> alls (c2 n b) /\ b' = w2 n b.
Proof.
  intros Z0. unfold zero_node. rewrite Z0. change (zrange 0 2) with [0; 1]. unfold run_stores. cbn [map foldM fst snd].
  intros E. apply bind_ok in E. destruct E as (b1 & E1 & E). apply bind_ok in E. destruct E as (b2 & E2 & E).
  injection E as <-.
  unfold c2, w2. cbv zeta. rewrite (wrv_ok _ _ _ _ E1), (wrv_ok _ _ _ _ E2). cbn [alls]. auto.
Qed.
Notation nx := (v_nx V). Notation ny := (v_ny V).
Definition nod2 (k : Z) (i : Z) : Z :=
  if k =? 2 then i else if k =? 3 then i + (ny - 1) * nx else if k =? 4 then (i + 1) * nx else (i + 2) * nx - 1.
Definition bnd2_names : list string := "i" :: ["this"; "non_linear"; "index"; "non_linear_one_elem"; "be"].
Notation stmt_ k := (for_body (nth k as_list2 SSkip)).
Notation run_ k i b nl :=
  (cut3 11 bnd2_names (out3 (execs1 asm_prog SM0 20 [stmt_ k] (with1 "i" i (e2_W (b, nl))) [])) =
   Some (with1 "i" i (e2_W (w2 (nod2 (Z.of_nat k) i) b, nl)), c2 (nod2 (Z.of_nat k) i) b)).
Lemma b2_run2 i b nl : run_ 2%nat i b nl. Proof. vmr. Qed.
Lemma b2_run3 i b nl : run_ 3%nat i b nl. Proof. vmr. Qed.
Lemma b2_run4 i b nl : run_ 4%nat i b nl. Proof. vmr. Qed.
Lemma b2_run5 i b nl : run_ 5%nat i b nl. Proof. vmr. Qed.
Hypothesis Z0 : dec 0 1 = (ofZ 0 : T).
Lemma b2_loop c hi body (N : Z -> Z) b b' nl :
  (forall i b, cond1 c (with1 "i" i (e2_W (b, nl))) (i <? hi)) ->
  (forall i b, cut3 11 bnd2_names (out3 (execs1 asm_prog SM0 20 [body] (with1 "i" i (e2_W (b, nl))) [])) =
     Some (with1 "i" i (e2_W (w2 (N i) b, nl)), c2 (N i) b)) ->
  run_stores (flat_map (fun i => zero_node 2 (N i)) (zrange 0 hi)) b = Ok b' ->
  step asm_prog (SFor "i" (EI 0) c body) (e2_W (b, nl)) (e2_W (b', nl)).
Proof.
  intros C1 RUN E. unfold run_stores in E. rewrite foldM_flat in E.
  refine (step_fold asm_prog _ "i" _ _ _ (fun b => e2_W (b, nl)) 0 hi _ _ E _ _ _ _); [reflexivity|reflexivity|intros; apply C1|].
  clear E b b'. intros i b b' I E. destruct (zero_node_w2 _ _ _ Z0 E) as (AL & ->).
  exact (step_cut asm_prog SM0 SM0_ok _ _ _ [] _ _ _ _ _ _ (RUN i b) AL eq_refl eq_refl).
Qed.
Lemma zero_bnd2_steps b b' nl : run_stores (zero_bnd2 V) b = Ok b' ->
  step asm_prog (block (tl (tl as_list2))) (e2_W (b, nl)) (e2_W (b', nl)).
Proof.
  intros E. unfold zero_bnd2, run_stores in E.
  rewrite foldM_app in E. apply bind_ok in E. destruct E as (b1 & E1 & E).
  rewrite foldM_app in E. apply bind_ok in E. destruct E as (b2 & E2 & E).
  rewrite foldM_app in E. apply bind_ok in E. destruct E as (b3 & E3 & E4).
  pose (st k := for_body (nth k as_list2 SSkip)).
  pose (cc := fun f (d : Z) => EBin Lt (EV "i") (if d =? 0 then EFld (EV "this") f else EBin Sub (EFld (EV "this") f) (EI d))).
  change (block (tl (tl as_list2))) with (block [
    SFor "i" (EI 0) (cc "nx" 0) (st 2%nat); SFor "i" (EI 0) (cc "nx" 0) (st 3%nat);
    SFor "i" (EI 0) (cc "ny" 2) (st 4%nat); SFor "i" (EI 0) (cc "ny" 2) (st 5%nat)]).
  cbn [block].
  eapply step_seq; [exact (b2_loop (cc "nx" 0) nx (st 2%nat) (nod2 2) _ _ nl ltac:(intros; apply cond_lt; reflexivity) (fun i b => b2_run2 i b nl) E1)|].
  eapply step_seq; [exact (b2_loop (cc "nx" 0) nx (st 3%nat) (nod2 3) _ _ nl ltac:(intros; apply cond_lt; reflexivity) (fun i b => b2_run3 i b nl) E2)|].
  eapply step_seq; [exact (b2_loop (cc "ny" 2) (ny - 2) (st 4%nat) (nod2 4) _ _ nl ltac:(intros; apply cond_lt; reflexivity) (fun i b => b2_run4 i b nl) E3)|].
  exact (b2_loop (cc "ny" 2) (ny - 2) (st 5%nat) (nod2 5) _ _ nl ltac:(intros; apply cond_lt; reflexivity) (fun i b => b2_run5 i b nl) E4).
Qed.
End Gen.

Lemma SM42_ok V : v_dim V = 2 -> forall f sm,
  SM42 (Wok V) (get_elem_rhs2D V) f = Some sm -> sum_ok asm_prog f sm.
Proof.
  intros D2 f sm. unfold SM42. destruct (String.eqb_spec f "get_elem_rhs2D"); [|discriminate].
  intros [= <-]. subst f. now apply sm_rhs2_ok.
Qed.

Section Loop.
Variables (V : env T) (u vold vn : arr T) (fs : fields) (l2 : list fields).
Hypothesis D2 : v_dim V = 2.
Hypothesis WO : Wok V fs (flds_b2 V) (v_etype V) l2.
Notation SM := (SM42 (Wok V) (get_elem_rhs2D V)).
Notation e2_W := (e2_W V u vold vn fs l2).

(** one element *)
Definition e2_f (ex ey : Z) (st : arr T * bool) : res (arr T * bool) :=
  ' r <- get_elem_rhs2D V u ex ey ;;
  b <- run_adds (rhs_adds 2 (sn2 (v_nx V) ex ey) (fst r)) (fst st) ;;
  Ok (b, if snd r then true else snd st).

Lemma e2_step ex ey st st' : e2_f ex ey st = Ok st' ->
  step asm_prog (for_body (for_body (nth 1 as_list2 SSkip)))
    (with1 "ey" ey (with1 "ex" ex (e2_W st))) (with1 "ey" ey (with1 "ex" ex (e2_W st'))).
Proof.
  intros E. unfold e2_f in E. apply bind_ok in E. destruct E as ((be & nl) & G & E). cbn [fst snd] in E.
  apply bind_ok in E. destruct E as (b' & RA & E). injection E as <-. destruct st as (b & n0). cbn [fst snd] in *.
  pose proof (e2_run V (Wok V) (get_elem_rhs2D V) u vold vn fs l2 ex ey b n0 nl) as RUN. cbv zeta in RUN.
  rewrite G in RUN. cbn [p_be p_nl] in RUN.
  change (for_body (for_body (nth 1 as_list2 SSkip))) with (seqs (removelast el_list2) (last el_list2 SSkip)).
  refine (step_execs asm_prog SM (SM42_ok V D2) _ _ _ _ _ _ _ _ _ _ RUN _ eq_refl _).
  { cbn [alls]. auto. }
  clear RUN. set (mem_ := fun b => e2_mem V u vold vn fs l2 b (if nl then 1 else bz n0) (e2_idxs V ex ey) [Some (bz nl)] (fc 8 (lget be))).
  apply (step_weak _ _ _ (mk1 (e2_env2 ex ey) (mem_ b'))).
  2:{ apply weaker_less; [intros x v X; exact X|]. unfold mem_, e2_mem. cbn [app pr72 fst snd].
      repeat (constructor; [apply less_refl|]).
      constructor; [destruct nl; apply less_refl|].
      constructor; [apply (less_nci (e2_idxs V ex ey))|].
      constructor; [apply (less_nci [Some (bz nl)])|].
      constructor; [apply (less_nc (fc 8 (lget be)))|]. constructor. }
  change (last el_list2 SSkip) with (SFor "i" (EI 0)
    (EBin Lt (EV "i") (EBin Mul (EFld (EV "this") "npe") (EFld (EV "this") "dim"))) (for_body (last el_list2 SSkip))).
  unfold run_adds, rhs_adds in RA. rewrite foldM_map in RA. cbn [fst snd] in RA.
  apply (step_fold asm_prog _ "i" _ _ _ (fun b => mk1 (e2_env2 ex ey) (mem_ b)) 0 8 b b' RA).
  - reflexivity.
  - reflexivity.
  - intros i m. apply cond_lt. reflexivity.
  - intros i m m' I E. rewrite (e2_idx_eq V) in E. apply bind_ok in E. destruct E as (old & RD & WR).
    pose proof (e2_add V (Wok V) (get_elem_rhs2D V) u vold vn fs l2 ex ey m (if nl then 1 else bz n0) [Some (bz nl)] be i I) as RUN.
    cbv zeta in RUN. rewrite (rdv_ok _ _ _ RD) in RUN. rewrite (wrv_ok _ _ _ _ WR) in RUN.
    refine (step_cut asm_prog SM (SM42_ok V D2) _ _ _ _ _ _ _ _ _ _ RUN _ eq_refl eq_refl).
    cbn [alls]. auto.
Qed.

(** all elements *)
Lemma e2_loops st st' :
  foldM (fun st e => let '(ex, ey) := e in e2_f ex ey st) (els2 V) st = Ok st' ->
  step asm_prog (nth 1 as_list2 SSkip) (e2_W st) (e2_W st').
Proof.
  unfold els2. rewrite foldM_flat. intros E.
  change (nth 1 as_list2 SSkip) with (SFor "ex" (EI 0) (EBin Lt (EV "ex") (EBin Sub (EFld (EV "this") "nx") (EI 1)))
    (SFor "ey" (EI 0) (EBin Lt (EV "ey") (EBin Sub (EFld (EV "this") "ny") (EI 1)))
      (for_body (for_body (nth 1 as_list2 SSkip))))).
  refine (step_fold asm_prog _ "ex" _ _ _ e2_W 0 _ _ _ E _ _ _ _); [reflexivity|reflexivity| |].
  { intros i m. apply cond_lt. reflexivity. }
  clear E st st'. intros ex st st' IX E. rewrite foldM_map in E.
  refine (step_fold asm_prog _ "ey" _ _ _ (fun st => with1 "ex" ex (e2_W st)) 0 _ _ _ E _ _ _ _); [reflexivity|reflexivity| |].
  { intros i m. apply cond_lt. reflexivity. }
  clear E st st'. intros ey st st' IY E. apply e2_step. exact E.
Qed.
Hypothesis Z0 : dec 0 1 = (ofZ 0 : T).

(** ** the whole function *)
Definition h2_mem1 (b : arr T) : list (option obj1) :=
  (pr72 V fs l2 vold vn u b ++ [Some (I1 [Some 0]); Some (I1 (nc 24)); Some (I1 [Some 0])])%list.
Lemma h2_pre b :
  out3 (execs1 asm_prog SM0 9 (firstn 4 as_list) (mk1 rh_env0 (pr72 V fs l2 vold vn u b ++ [Some (I1 (nc 1))])%list) []) =
  Some (mk1 rh_env1 (h2_mem1 b), []).
Proof. vmr. Qed.
Lemma h2_clr b i : let a := wrv b i (ofZ 0) in
  cut3 10 ["i"; "this"; "non_linear"; "index"; "non_linear_one_elem"]
    (out3 (execs1 asm_prog SM0 9 [for_body (nth 4 as_list SSkip)] (with1 "i" i (mk1 rh_env1 (h2_mem1 b))) [])) =
  Some (with1 "i" i (mk1 rh_env1 (h2_mem1 a)), [wr b i (ofZ 0) = Ok a]).
Proof. cbv zeta. vmr. Qed.
Lemma h2_be b :
  out3 (execs1 asm_prog SM0 9 [hd SSkip as_list2] (mk1 rh_env1 (h2_mem1 b)) []) =
  Some (mk1 el_env (h2_mem1 b ++ [Some (D1 (nc 8))])%list, []).
Proof. vmr. Qed.
Lemma h2_neg nl b i : let a := wrv b i (oopp (rdv b i)) in
  cut3 11 ["i"; "this"; "non_linear"; "index"; "non_linear_one_elem"; "be"]
    (out3 (execs1 asm_prog SM0 9 [for_body (nth 6 as_list SSkip)] (with1 "i" i (e2_W (b, nl))) [])) =
  Some (with1 "i" i (e2_W (a, nl)), [rd b i = Ok (rdv b i); wr b i (oopp (rdv b i)) = Ok a]).
Proof. cbv zeta. vmr. Qed.
Definition n2_W (nl : bool) (b : arr T) (t : T) : @st1 T :=
  mk1 (el_env ++ [("norm", VD t)])%list (m1 (e2_W (b, nl))).
Lemma h2_nrm0 nl b :
  out3 (execs1 asm_prog SM0 9 [nth 7 as_list SSkip] (e2_W (b, nl)) []) = Some (n2_W nl b (ofZ 0), []).
Proof. vmr. Qed.
Lemma h2_nrm nl b i t :
  cut3 11 ["i"; "this"; "non_linear"; "index"; "non_linear_one_elem"; "be"; "norm"]
    (out3 (execs1 asm_prog SM0 9 [for_body (nth 8 as_list SSkip)] (with1 "i" i (n2_W nl b t)) [])) =
  Some (with1 "i" i (n2_W nl b (oadd t (omul (rdv b i) (rdv b i)))), [rd b i = Ok (rdv b i); rd b i = Ok (rdv b i)]).
Proof. vmr. Qed.
Lemma h2_nrm2 nl b t :
  out3 (execs1 asm_prog SM0 9 [nth 9 as_list SSkip] (n2_W nl b t) []) = Some (n2_W nl b (osqrt t), []).
Proof. vmr. Qed.
Lemma nd2 : ndofs V = v_nx V * v_ny V * v_nz V * 2.
Proof. unfold ndofs, nn. now rewrite D2. Qed.

Lemma rhs2_rstep b b' nl vn' nrm :
  assembly_rhs V u vold vn b = Ok (b', nl, vn', nrm) ->
  exists w, rstep asm_prog (f_body ast_assembly_rhs)
    (mk1 rh_env0 (pr72 V fs l2 vold vn u b ++ [Some (I1 (nc 1))])%list) w (VD nrm) /\
    cut 8 [] w = Some (mk1 [] (pr72 V fs l2 vold vn' u b' ++ [Some (I1 [Some (bz nl)])])%list).
Proof.
  intros E. unfold assembly_rhs in E. apply bind_ok in E. destruct E as (b1 & E1 & E).
  rewrite D2 in E. change (2 =? 2) with true in E. cbn match in E.
  apply bind_ok in E. destruct E as (((b3 & nl3) & vn3) & EB & E).
  apply bind_ok in EB. destruct EB as ((b2 & nl2) & E2 & EB). cbn [fst snd] in EB.
  apply bind_ok in EB. destruct EB as (b3' & E3 & EB). injection EB as -> -> <-. cbn [fst snd] in E.
  apply bind_ok in E. destruct E as (b4 & E4 & E). apply bind_ok in E. destruct E as (n2 & E5 & E).
  injection E as <- <- <- <-.
  exists (n2_W nl3 b4 (osqrt n2)). split; [|reflexivity].
  change (f_body ast_assembly_rhs) with (seqs (firstn 4 as_list)
    (SSeq (nth 4 as_list SSkip) (SSeq (nth 5 as_list SSkip) (SSeq (nth 6 as_list SSkip)
    (SSeq (nth 7 as_list SSkip) (SSeq (nth 8 as_list SSkip) (SSeq (nth 9 as_list SSkip) (SRet (EV "norm"))))))))).
  unfold rstep. refine (rstep_execs asm_prog SM0 SM0_ok _ _ _ _ _ _ _ _ _ (h2_pre b) I _).
  change (rstep asm_prog (SSeq (nth 4 as_list SSkip) (SSeq (nth 5 as_list SSkip) (SSeq (nth 6 as_list SSkip)
    (SSeq (nth 7 as_list SSkip) (SSeq (nth 8 as_list SSkip) (SSeq (nth 9 as_list SSkip) (SRet (EV "norm"))))))))
    (mk1 rh_env1 (h2_mem1 b)) (n2_W nl3 b4 (osqrt n2)) (VD (osqrt n2))).
  assert (CN : forall (w : @st1 T) i, look1 "i" (e1 w) = Some (VI i) -> look1 "this" (e1 w) = Some (VP 0 0) ->
    blk w 0 = Some (R1 fs (flds_b2 V)) ->
    cond1 (EBin Lt (EV "i") (EBin Mul (EFld (EV "this") "nn") (EFld (EV "this") "dim"))) w (i <? ndofs V)).
  { intros w i L1 L2 B. rewrite nd2. apply cond_lt. cbn [eval1]. unfold bind1, opt1, ret1. rewrite L1, L2.
    cbn [load_fld1]. rewrite B. reflexivity. }
  (* b[i] = 0.0 *)
  eapply rstep_seq with (w2 := mk1 rh_env1 (h2_mem1 b1)).
  { apply gstep_step. unfold run_stores in E1. rewrite foldM_map in E1. cbn [fst snd] in E1. rewrite Z0 in E1.
    change (nth 4 as_list SSkip) with (SFor "i" (EI 0)
      (EBin Lt (EV "i") (EBin Mul (EFld (EV "this") "nn") (EFld (EV "this") "dim"))) (for_body (nth 4 as_list SSkip))).
    refine (step_fold asm_prog _ "i" _ _ _ (fun b => mk1 rh_env1 (h2_mem1 b)) 0 _ _ _ E1 _ _ _ _); [reflexivity|reflexivity| |].
    - intros i m. apply CN; reflexivity.
    - intros i m m' _ W. pose proof (h2_clr m i) as RUN. cbv zeta in RUN. rewrite (wrv_ok _ _ _ _ W) in RUN.
      refine (step_cut asm_prog SM0 SM0_ok _ _ _ [] _ _ _ _ _ _ RUN _ eq_refl eq_refl). cbn [alls]. auto. }
  (* the elements and the boundary *)
  eapply rstep_seq with (w2 := e2_W (b3, nl3)).
  { change (nth 5 as_list SSkip) with (SIf (EBin Eq (EFld (EV "this") "dim") (EI 2)) as_2
      (match nth 5 as_list SSkip with SIf _ _ a => a | _ => SSkip end)).
    apply (gstep_if asm_prog true).
    { exists (VI 1), []. split; [reflexivity|]. split; [exact I|reflexivity]. }
    change as_2 with (seqs [hd SSkip as_list2] (SSeq (nth 1 as_list2 SSkip) (block (tl (tl as_list2))))).
    refine (gstep_execs asm_prog SM0 SM0_ok _ _ _ _ _ _ _ _ (h2_be b1) I _). apply gstep_step.
    apply (step_weak1 _ _ _ (e2_W (b1, false))).
    { apply weaker_less; [intros x v X; exact X|]. unfold h2_mem1, e2_mem. cbn [app pr72 fst snd].
      repeat (constructor; [apply less_refl|]). constructor; [apply (less_nci [Some 0])|].
      constructor; [apply less_refl|constructor]. }
    eapply step_seq; [exact (e2_loops (b1, false) _ E2)|].
    apply zero_bnd2_steps; assumption. }
  (* the sign *)
  eapply rstep_seq with (w2 := e2_W (b4, nl3)).
  { apply gstep_step.
    change (nth 6 as_list SSkip) with (SFor "i" (EI 0)
      (EBin Lt (EV "i") (EBin Mul (EFld (EV "this") "nn") (EFld (EV "this") "dim"))) (for_body (nth 6 as_list SSkip))).
    unfold upd_for in E4.
    refine (step_fold asm_prog _ "i" _ _ _ (fun b => e2_W (b, nl3)) 0 _ _ _ E4 _ _ _ _); [reflexivity|reflexivity| |].
    - intros i m. apply CN; reflexivity.
    - intros i m m' _ W. apply bind_ok in W. destruct W as (v & W1 & W). apply bind_ok in W1. destruct W1 as (x & W1 & W2).
      injection W2 as <-.
      pose proof (h2_neg nl3 m i) as RUN. cbv zeta in RUN. rewrite (rdv_ok _ _ _ W1), (wrv_ok _ _ _ _ W) in RUN.
      refine (step_cut asm_prog SM0 SM0_ok _ _ _ [] _ _ _ _ _ _ RUN _ eq_refl eq_refl). cbn [alls]. auto. }
  (* the norm *)
  eapply rstep_seq; [exact (gstep_exec asm_prog SM0 SM0_ok _ _ _ _ _ _ (h2_nrm0 nl3 b4) I)|].
  eapply rstep_seq with (w2 := n2_W nl3 b4 n2).
  { apply gstep_step.
    change (nth 8 as_list SSkip) with (SFor "i" (EI 0)
      (EBin Lt (EV "i") (EBin Mul (EFld (EV "this") "nn") (EFld (EV "this") "dim"))) (for_body (nth 8 as_list SSkip))).
    unfold dotM, sumM in E5.
    refine (step_fold asm_prog _ "i" _ _ _ (n2_W nl3 b4) 0 _ _ _ E5 _ _ _ _); [reflexivity|reflexivity| |].
    - intros i m. apply CN; reflexivity.
    - intros i m m' _ W. apply bind_ok in W. destruct W as (v & W1 & W). apply bind_ok in W1. destruct W1 as (x & W1 & W2).
      apply bind_ok in W2. destruct W2 as (y & W2 & W3). injection W3 as <-. injection W as <-.
      assert (y = x) by congruence. subst y.
      pose proof (h2_nrm nl3 b4 i m) as RUN. rewrite (rdv_ok _ _ _ W1) in RUN.
      refine (step_cut asm_prog SM0 SM0_ok _ _ _ [] _ _ _ _ _ _ RUN _ eq_refl eq_refl). cbn [alls]. auto. }
  eapply rstep_seq; [exact (gstep_exec asm_prog SM0 SM0_ok _ _ _ _ _ _ (h2_nrm2 nl3 b4 n2) I)|].
  apply rstep_ret; [reflexivity|discriminate].
Qed.
End Loop.

Lemma Wok_b2 (V : env T) A fs l2 : this_in fs V A -> mats_in l2 V -> Wok V fs (flds_b2 V) (v_etype V) l2.
Proof. intros TI MI. split; [exists A; exact TI|]. splits; assumption || reflexivity. Qed.
Lemma pr72_at (V : env T) A fs l2 vold vnew u b h ad l : ad = ((body_addrs A ++ [a_b A]) ++ l)%list ->
  h (a_this A) = Some (OS fs) -> this_in fs V A -> h (a_et A) = Some (OI (v_etype V)) -> h (a_ml A) = Some (OV l2) ->
  h (a_vo A) = Some (OD vold) -> h (a_vn A) = Some (OD vnew) -> h (a_u A) = Some (OD u) -> h (a_b A) = Some (OD b) ->
  v_dim V = 2 -> atall ad (body_addrs A ++ [a_b A])%list (pr72 V fs l2 vold vnew u b) h.
Proof.
  intros -> H1 TI H2 H3 H4 H5 H6 H7 D2. unfold pr72, body_addrs, flds_b2. cbn -[this_flds].
  splits; try exact I; (eexists; split; [eassumption|]); try reflexivity.
  - split; [reflexivity|]. apply (this_rfs _ fs 2 (v_type V) V A); auto; try exact I; eexists; split; reflexivity.
  - split; [reflexivity|]. intros i fs2 E. destruct i; discriminate.
Qed.
Lemma pr72_get (V : env T) A fs l2 vold vnew u b h full : mats_in l2 V -> this_in fs V A ->
  atall full (body_addrs A ++ [a_b A])%list (pr72 V fs l2 vold vnew u b) h ->
  body V A vold vnew u h /\ h (a_b A) = Some (OD b).
Proof.
  intros MI TI AT. unfold pr72, body_addrs in AT. cbn -[flds_b2 ro] in AT.
  destruct AT as ((o0 & M0 & R0) & (o1 & M1 & R1') & (o2 & M2 & R2) & (o3 & M3 & R3) & (o4 & M4 & R4) &
      (o5 & M5 & R5) & (o6 & M6 & R6) & _).
  cbn [ro] in *. destruct R0 as (-> & _). destruct R2 as (-> & _). subst. split; [exists fs, l2; auto 10|exact M6].
Qed.
(** the residual, its norm and the flag *)
Theorem assembly_rhs2D_text V A vold vnew u b h k bl fl b' nl vnew' nrm :
  v_dim V = 2 -> dec 0 1 = (ofZ 0 : T) -> NoDup (body_addrs A ++ [a_b A; bl])%list ->
  Forall (fun a => a < k) (body_addrs A ++ [a_b A; bl])%list -> body V A vold vnew u h ->
  h (a_b A) = Some (OD b) -> h bl = Some (OI fl) -> alen fl = 1 ->
  assembly_rhs V u vold vnew b = Ok (b', nl, vnew', nrm) ->
  exists st fl',
    calls asm_prog "assembly_rhs" [VP (a_this A) 0; VP bl 0] h k (Ok (st, Ret (VD nrm))) /\
    body V A vold vnew' u (mem st) /\ mem st (a_b A) = Some (OD b') /\
    mem st bl = Some (OI fl') /\ alen fl' = 1 /\ aget fl' 0 = Some (if nl then 1 else 0) /\
    frame h (mem st) k [a_vn A; a_b A; bl] /\ k <= nxt st.
Proof.
  intros D2 Z0 ND FK (fs & l2 & B0 & B1 & B2' & B3' & B4 & B5 & B6 & B7) HB HL LL M.
  destruct (rhs2_rstep V u vold vnew fs l2 D2 (Wok_b2 V A fs l2 B1 B4) Z0 b b' nl vnew' nrm M) as (w & RS & CU).
  set (ad := (body_addrs A ++ [a_b A; bl])%list) in *.
  destruct (calls_rstep asm_prog "assembly_rhs" ast_assembly_rhs [VP 0 0; VP 7 0] [VP (a_this A) 0; VP bl 0] rh_env0
    ad (pr72 V fs l2 vold vnew u b ++ [Some (I1 (nc 1))])%list h k _ _ _ eq_refl eq_refl RS CU) as (st & C & MS & (K1' & K2')).
  { apply atall_msim; [|exact ND|exact FK]. change ad with ((body_addrs A ++ [a_b A]) ++ [bl])%list at 2.
    refine (atall_app _ _ _ _ _ _ _ _).
    - eapply pr72_at; eauto. reflexivity.
    - cbn -[nc]. split; [|exact I]. exists (OI fl). split; [exact HL|]. exists fl. split; [reflexivity|]. now apply nc_cells. }
  { repeat constructor; eexists; split; reflexivity. }
  apply msim_atall0 in MS. cbn [m1] in MS.
  change ad with ((body_addrs A ++ [a_b A]) ++ [bl])%list in MS at 2.
  apply atall_split in MS; [|reflexivity]. destruct MS as (AT1 & AT2).
  cbn in AT2. destruct AT2 as ((o2 & M2 & (fl' & -> & R2)) & _).
  destruct (pr72_get _ A _ _ _ _ _ _ _ _ B4 B1 AT1) as (BD & MB).
  exists st, fl'. split; [exact C|]. split; [exact BD|]. split; [exact MB|]. split; [exact M2|].
  destruct R2 as (L2 & R2). split; [exact L2|]. split; [exact (R2 0%nat (bz nl) eq_refl)|]. split; [|exact K1'].
  intros c LC N. destruct (in_dec Z.eq_dec c ad) as [IN|IN]; [|now apply K2'].
  clear -IN N AT1 B0 B2' B3' B5 B7. unfold pr72, body_addrs in AT1. cbn -[flds_b2 ro] in AT1.
  destruct AT1 as ((o0 & Q0 & R0) & (o1 & Q1 & R1') & (o2 & Q2 & R2) & (o3 & Q3 & R3) & (o4 & Q4 & R4) &
      (o5 & Q5 & R5) & _). cbn [ro] in *. destruct R0 as (-> & _). destruct R2 as (-> & _). subst.
  cbn in IN, N. repeat destruct IN as [IN|IN]; try subst c; try tauto; congruence.
Qed.
End Asm.
