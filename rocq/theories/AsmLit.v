(** The syntax trees of src/assembly.cpp (AsmAst.v) against the model (AssemblyModel.v):
    the material law.  Each function is run symbolically (Sym.v) and its result compared
    with the definition of the model. *)
From Coq Require Import String.
From Verif Require Import Base Scalar Clite CliteRules EllAst AsmAst Sym Grid EllModel AssemblyModel.
Local Open Scope string_scope.
Local Open Scope Z_scope.

(** the two sides computed and compared *)
Ltac vmr := match goal with |- _ = ?r => exact_no_check (eq_refl r) end.
Ltac splits := repeat match goal with |- _ /\ _ => split end.

Section Asm.
Context {T : Type} `{OT : Ops T}.

(** an array of doubles holding the first [n] entries of a list *)
Definition vec (n : nat) (a : arr T) (l : list T) : Prop :=
  alen a = Z.of_nat n /\ forall i, 0 <= i < Z.of_nat n -> aget a i = Some (lget l i).
Definition fc (n : nat) (f : Z -> T) : list (option T) := map (fun i => Some (f (Z.of_nat i))) (seq 0 n).
Definition nc (n : nat) {A} : list (option A) := repeat None n.

Lemma fc_cells n a f : cells a (fc n f) <->
  alen a = Z.of_nat n /\ forall i, 0 <= i < Z.of_nat n -> aget a i = Some (f i).
Proof.
  unfold fc, cells. rewrite map_length, seq_length. split; intros (L & H); (split; [exact L|]).
  - intros i R. rewrite <- (Z2Nat.id i) by lia. apply H. rewrite nth_error_map.
    rewrite (nth_error_nth' _ 0%nat) by (rewrite seq_length; lia). rewrite seq_nth by lia. reflexivity.
  - intros i v. rewrite nth_error_map. destruct (nth_error (seq 0 n) i) as [j|] eqn:E; [|discriminate].
    intros [= <-]. assert (i < n)%nat by (rewrite <- (seq_length n 0); apply nth_error_Some; congruence).
    rewrite (nth_error_nth' _ 0%nat), seq_nth in E by (rewrite ?seq_length; lia). injection E as <-.
    apply H. lia.
Qed.
Lemma vec_cells n a l : vec n a l <-> cells a (fc n (lget l)).
Proof. symmetry. apply fc_cells. Qed.
Lemma nc_cells {A} n (a : arr A) : alen a = Z.of_nat n -> cells a (nc n).
Proof.
  intros L. split; [unfold nc; now rewrite repeat_length|]. intros i v E.
  apply nth_error_In, repeat_spec in E. discriminate.
Qed.
Lemma one_cells {A} (a : arr A) v : cells a [Some v] <-> alen a = 1 /\ aget a 0 = Some v.
Proof.
  split; intros (L & H); (split; [exact L|]).
  - now apply (H 0%nat).
  - intros [|[|i]] w E; cbn in E; try discriminate. now injection E as <-.
Qed.

(** the fields of a material_t *)
Definition mat_flds (m : material T) (p : option bool) : list (string * option (@val T)) :=
  [("E", Some (VD (m_E m))); ("nu", Some (VD (m_nu m))); ("k", Some (VD (m_k m)));
   ("mu", Some (VD (m_mu m))); ("lambda", Some (VD (m_lambda m))); ("Ka", Some (VD (m_Ka m)));
   ("Sy", Some (VD (m_Sy m)));
   ("plasticity", option_map (fun b : bool => VI (if b then 1 else 0)) p)].
(** [fs] holds the material [m] *)
Definition mat_in (fs : list (string * option (@val T))) (m : material T) : Prop :=
  forall f w, In (f, w) (mat_flds m (m_plast m)) ->
    exists w2, fget fs f = Some w2 /\ (w <> None -> w2 = w).

Lemma mat_in_rfs ad fs m : mat_in fs m -> rfs ad (mat_flds m (m_plast m)) fs.
Proof.
  intros H f w F. destruct (H f w) as (w2 & F2 & Q).
  - revert F. generalize (mat_flds m (m_plast m)). intros l. induction l as [|[g u] l IH]; cbn; [discriminate|].
    destruct (String.eqb_spec f g); [intros [= ->]; left; congruence|right; auto].
  - exists w2. split; [exact F2|]. destruct w as [v|]; [|exact I]. exists v. split; [apply Q; discriminate|].
    assert (NP : match v with VP _ _ => False | _ => True end).
    { clear -F. unfold mat_flds in F. cbn [fget] in F.
      repeat match type of F with (if ?b then _ else _) = _ => destruct b; [try (injection F as <-; exact I)|] end;
        [|discriminate]. destruct (m_plast m); cbn in F; [injection F as <-; exact I|discriminate]. }
    destruct v; cbn; tauto.
Qed.

(** ** plastic_step *)
Definition noSM : string -> option (@summary T) := fun _ => None.
Lemma noSM_ok : forall f sm, noSM f = Some sm -> sum_ok asm_prog f sm. Proof. discriminate. Qed.

(** the model's plastic_step with the outcome of the yield test given *)
Local Open Scope num_scope.
Definition trial (m : material T) (eps ep : list T) (i : Z) : T :=
  lget (ltab 6 (fun i => if (i <? 3)%Z
    then ofZ 2 * m_mu m * (lget (dev eps) i - lget (dev ep) i)
    else m_mu m * (lget (dev eps) i - lget (dev ep) i))) i.
Definition trial_norm (m : material T) (eps ep : list T) : T :=
  let q := trial m eps ep in
  osqrt (q 0%Z * q 0%Z + q 1%Z * q 1%Z + q 2%Z * q 2%Z + ofZ 2 * q 3%Z * q 3%Z
         + ofZ 2 * q 4%Z * q 4%Z + ofZ 2 * q 5%Z * q 5%Z).
Definition ftrial (m : material T) (eps ep : list T) (alpha : T) : T :=
  trial_norm m eps ep - osqrt (ofZ 2 / ofZ 3) * (m_Sy m + m_Ka m * alpha).
Definition pstep_of (nl : bool) (m : material T) (eps ep : list T) (alpha : T) : pstep T :=
  let q := trial m eps ep in
  let nrm := trial_norm m eps ep in
  let f := ftrial m eps ep alpha in
  let normal := if nl then ltab 6 (fun i => q i / nrm) else zeros 6 in
  let dl := if nl
    then f / (ofZ 2 * m_mu m * (ofZ 1 + (ofZ 0 * m_Ka m) / (ofZ 3 * m_mu m))) else ofZ 0 in
  let ep' := if nl then ltab 6 (fun i => lget ep i + dl * lget normal i) else ltab 6 (lget ep) in
  let alpha' := if nl then alpha + osqrt (ofZ 2 / ofZ 3) * dl else alpha in
  let sig := ltab 6 (fun i =>
    (if (i <? 3)%Z then q i + m_k m * (lget eps 0 + lget eps 1 + lget eps 2) else q i)
    - ofZ 2 * m_mu m * dl * lget normal i) in
  mkPstep ep' alpha' nl sig.
Local Close Scope num_scope.
Lemma plastic_step_of m eps ep alpha :
  plastic_step m eps ep alpha = pstep_of (oltb (ofZ 0) (ftrial m eps ep alpha)) m eps ep alpha.
Proof. reflexivity. Qed.

Definition ps_env (alpha : T) : list (string * @val T) :=
  [("this", VP 7 0); ("material", VP 0 0); ("eps", VP 1 0); ("eps_p_old", VP 2 0); ("alpha_old", VD alpha);
   ("eps_p_new", VP 3 0); ("alpha_new", VP 4 0); ("non_linear", VP 5 0); ("stress", VP 6 0)].
Definition ps_world (fs2 : list (string * option (@val T))) (m : material T) p ae ap eps ep ft z0
  : list (option (@obj1 T)) :=
  [Some (R1 fs2 (mat_flds m p)); Some (C1 ae (fc 6 (lget eps))); Some (C1 ap (fc 6 (lget ep)));
   Some (D1 (nc 6)); Some (D1 (nc 1)); Some (I1 [Some z0]); Some (D1 (nc 6)); Some (R1 ft [])].
Definition ps_world' (fs2 : list (string * option (@val T))) (m : material T) p ae ap eps ep ft z0 nl alpha
  : list (option (@obj1 T)) :=
  let r := pstep_of nl m eps ep alpha in
  [Some (R1 fs2 (mat_flds m p)); Some (C1 ae (fc 6 (lget eps))); Some (C1 ap (fc 6 (lget ep)));
   Some (D1 (fc 6 (lget (ps_eps_p r)))); Some (D1 [Some (ps_alpha r)]); Some (I1 [Some (if nl then 1 else z0)]);
   Some (D1 (fc 6 (lget (ps_stress r)))); Some (R1 ft [])].

Lemma ps_run nl fs2 m p ae ap eps ep ft alpha z0 :
  out 8 (exec1 asm_prog noSM 60 (f_body ast_plastic_step)
    (mk1 (ps_env alpha) (ps_world fs2 m p ae ap eps ep ft z0)) [nl]) =
  Some (ps_world' fs2 m p ae ap eps ep ft z0 nl alpha, [oltb (ofZ 0) (ftrial m eps ep alpha) = nl]).
Proof. destruct nl; vmr. Qed.
(** the addresses of [ad] other than those in [ex] keep their contents *)
Definition frame (h h' : Z -> option (@obj T)) (k : Z) (ex : list Z) : Prop :=
  forall c, c < k -> ~ In c ex -> h' c = h c.

(** plastic_step, src/assembly.cpp:1007-1062, writes what the model computes *)
Theorem plastic_step_text bt bm be bo bn ba bf bs k h ft fm m ae ap an aa fl as_ eps ep alpha z0 :
  NoDup [bm; be; bo; bn; ba; bf; bs; bt] -> Forall (fun a => a < k) [bm; be; bo; bn; ba; bf; bs; bt] ->
  h bt = Some (OS ft) -> h bm = Some (OS fm) -> mat_in fm m ->
  h be = Some (OD ae) -> vec 6 ae eps -> h bo = Some (OD ap) -> vec 6 ap ep ->
  h bn = Some (OD an) -> alen an = 6 -> h ba = Some (OD aa) -> alen aa = 1 ->
  h bf = Some (OI fl) -> alen fl = 1 -> aget fl 0 = Some z0 -> h bs = Some (OD as_) -> alen as_ = 6 ->
  let r := plastic_step m eps ep alpha in
  exists st an' aa' fl' as',
    calls asm_prog "plastic_step"
      [VP bt 0; VP bm 0; VP be 0; VP bo 0; VD alpha; VP bn 0; VP ba 0; VP bf 0; VP bs 0] h k (Ok (st, Nrm)) /\
    mem st bn = Some (OD an') /\ vec 6 an' (ps_eps_p r) /\
    mem st ba = Some (OD aa') /\ alen aa' = 1 /\ aget aa' 0 = Some (ps_alpha r) /\
    mem st bf = Some (OI fl') /\ alen fl' = 1 /\ aget fl' 0 = Some (if ps_nl r then 1 else z0) /\
    mem st bs = Some (OD as') /\ vec 6 as' (ps_stress r) /\
    frame h (mem st) k [bn; ba; bf; bs] /\ k <= nxt st.
Proof.
  intros ND FK HT HM MI HE VE HO VO HN LN HA LA HF LF GF HS LS.
  set (nl := oltb (ofZ 0) (ftrial m eps ep alpha)).
  destruct (calls_sym asm_prog noSM noSM_ok "plastic_step" ast_plastic_step
    [VP 7 0; VP 0 0; VP 1 0; VP 2 0; VD alpha; VP 3 0; VP 4 0; VP 5 0; VP 6 0]
    [VP bt 0; VP bm 0; VP be 0; VP bo 0; VD alpha; VP bn 0; VP ba 0; VP bf 0; VP bs 0]
    (ps_env alpha) [bm; be; bo; bn; ba; bf; bs; bt]
    (ps_world fm m (m_plast m) ae ap eps ep ft z0) h k 60 [nl]
    (ps_world' fm m (m_plast m) ae ap eps ep ft z0 nl alpha)
    [oltb (ofZ 0) (ftrial m eps ep alpha) = nl]) as (l & st & C & A & Kp); auto.
  - cbn -[fc nc mat_flds].
    repeat match goal with |- _ /\ _ => split end; try exact I; try (eexists; split; [eassumption|]).
    + split; [reflexivity|]. now apply mat_in_rfs.
    + split; [reflexivity|]. now apply vec_cells.
    + split; [reflexivity|]. now apply vec_cells.
    + eexists. split; [reflexivity|]. now apply nc_cells.
    + eexists. split; [reflexivity|]. now apply nc_cells.
    + eexists. split; [reflexivity|]. now apply one_cells.
    + eexists. split; [reflexivity|]. now apply nc_cells.
    + split; [reflexivity|]. intros f w. discriminate.
  - repeat constructor; eexists; split; reflexivity.
  - apply ps_run.
  - cbn. auto.
  - unfold ps_world' in A. cbn -[fc mat_flds pstep_of] in A.
    destruct A as ((om & M0 & -> & _) & (oe & M1 & -> & _) & (oo & M2 & -> & _) & (on & M3 & (an' & -> & V3)) &
      (oa & M4 & (aa' & -> & V4)) & (of & M5 & (fl' & -> & V5)) & (os & M6 & (as' & -> & V6)) & (ot & M7 & -> & _) & _).
    rewrite (plastic_step_of m eps ep alpha). fold nl.
    exists st, an', aa', fl', as'. split; [exact C|]. split; [exact M3|]. split; [now apply vec_cells|].
    split; [exact M4|]. apply one_cells in V4. split; [apply V4|]. split; [apply V4|].
    split; [exact M5|]. apply one_cells in V5. split; [apply V5|].
    split; [change (ps_nl (pstep_of nl m eps ep alpha)) with nl; apply V5|].
    split; [exact M6|]. split; [now apply vec_cells|]. destruct Kp as (K1 & K2). split; [|exact K1].
    intros c LC N. cbn in N.
    destruct (in_dec Z.eq_dec c [bm; be; bo; bn; ba; bf; bs; bt]) as [IN|IN]; [|now apply K2].
    cbn in IN. repeat destruct IN as [IN|IN]; try subst c; try tauto; congruence.
Qed.
End Asm.
