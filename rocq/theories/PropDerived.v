(** * C64: keys derived from a secret seed are as good as random keys.

    The hash to scalar is a random function; the hash to group and the output
    hash are any functions.  A program asks for the keys of servers made by
    [new_from_seed] from a secret seed, for modes and key infos of its choice,
    and hashes to scalars as it likes.  It cannot tell these keys from keys
    made with another random function, unless it guesses the seed; and those
    are independent and uniform among the scalars other than zero. *)
From Verif Require Import Laws Spec BytesFacts GroupFacts CommonFacts OprfFacts VoprfFacts PoprfFacts PropEncoding
  PropCorrectness Oracle RomFacts ZkFacts Guess PrfFacts PropUnpredict PropRom PropZk PropPrf Zq.
From Verif Require PropUniform.
From Coq Require Import Permutation Lia ArithRing.
Open Scope N_scope.

(** ** The games *)

(** The private key of the server of a mode, and its public key if it has one. *)
Definition keys_from_seed (CS : CipherSuite) (mode : Mode) (seed info : bytes) : res (scalar CS * option (elem CS)) :=
  match mode with
  | Oprf => match oprf_server_new_from_seed CS seed info with
            | Ok s => Ok (oprf_sk s, None) | Err e => Err e | Panic => Panic | Diverge => Diverge end
  | Voprf => match voprf_server_new_from_seed CS seed info with
             | Ok s => Ok (voprf_sk s, Some (voprf_pk s)) | Err e => Err e | Panic => Panic | Diverge => Diverge end
  | Poprf => match poprf_server_new_from_seed CS seed info with
             | Ok s => Ok (poprf_sk s, Some (poprf_pk s)) | Err e => Err e | Panic => Panic | Diverge => Diverge end
  end.

(** A program: it hashes to scalars, asks for keys, and says yes or no. *)
Inductive key_user (CS : CipherSuite) : Type :=
| UHash (message tag : bytes) (next : scalar CS -> key_user CS)
| UKeys (mode : Mode) (info : bytes) (next : res (scalar CS * option (elem CS)) -> key_user CS)
| USay (yes : bool).
Arguments UHash {CS} _ _ _.
Arguments UKeys {CS} _ _ _.
Arguments USay {CS} _.

(** What it says, when [O] is the hash function and [keys] answers. *)
Fixpoint uses {CS} (O : oracle (scalar CS)) (keys : Mode -> bytes -> res (scalar CS * option (elem CS))) (A : key_user CS) : bool :=
  match A with
  | UHash m t next => uses O keys (next (O m t))
  | UKeys mode info next => uses O keys (next (keys mode info))
  | USay yes => yes
  end.

(** With keys made from [seed], by the servers' code with the hash function
    [hash]; and with keys made with another hash function (and no seed). *)
Definition with_seed_says {CS} (A : key_user CS) (hash : oracle (scalar CS)) (seed : bytes) : bool :=
  uses (CS := CS) hash (fun mode info => keys_from_seed (with_oracle CS hash) mode seed info) A.
Definition independent_says {CS} (A : key_user CS) (hash other : oracle (scalar CS)) : bool :=
  uses (CS := CS) hash (fun mode info => keys_from_seed (with_oracle CS other) mode [] info) A.

Fixpoint user_hashes {CS} (Q : nat) (A : key_user CS) : Prop :=
  match A with
  | UHash _ _ next => (1 <= Q)%nat /\ forall a, user_hashes (Q - 1) (next a)
  | UKeys _ _ next => forall r, user_hashes Q (next r)
  | USay _ => True
  end.

(** ** A permutation of the answers at each point *)
Section Shift.
Open Scope nat_scope.
Context {S : Type} (answers : list S).
Local Notation q := (length answers).
Local Notation oracles := (oracles answers).

Lemma sum_permuted (D : list point) : forall (change : point -> S -> S) (O : oracle S) (f : oracle S -> nat),
  NoDup D -> respectsN f ->
  (forall p, Permutation (map (change p) answers) answers) ->
  (forall p a, ~ In p D -> change p a = a) ->
  sum (fun O' => f (fun m t => change (m, t) (O' m t))) (oracles D O) = sum f (oracles D O).
Proof.
  induction D as [|x D IH]; intros change O f Hd Hf Hp Hn.
  - simpl. f_equal. apply Hf. intros m t. apply Hn. intros [].
  - simpl. rewrite !sum_flat_map.
    inversion Hd as [|? ? Hx Hd']; subst.
    set (rest := fun p a => if point_dec p x then a else change p a).
    assert (H : forall a, sum (fun O' => f (fun m t => change (m, t) (O' m t))) (oracles D (update O x a))
      = sum f (oracles D (update O x (change x a)))).
    { intros a.
      rewrite <- (sum_update answers f D O x a (change x a) Hf Hx).
      rewrite <- (IH rest (update O x a) (fun O' => f (update O' x (change x a))) Hd').
      - apply sum_ext. intros O' HO'. apply Hf. intros m t. unfold update, rest.
        destruct (point_dec (m, t) x) as [E|E]; auto.
        assert (Ha : O' m t = a).
        { rewrite (oracles_fixed answers D _ _ _ _ HO'); [|now rewrite E]. unfold update. now destruct (point_dec (m, t) x). }
        now rewrite Ha, E.
      - intros O1 O2 H. apply Hf. now apply update_same.
      - intros p. unfold rest. destruct (point_dec p x); [now rewrite map_id|auto].
      - intros p a' H. unfold rest. destruct (point_dec p x) as [|E]; auto. apply Hn. intros [E'|E']; auto. }
    rewrite (sum_ext _ (fun a => sum f (oracles D (update O x (change x a))))) by (intros a _; apply H).
    rewrite <- (sum_map (fun a => sum f (oracles D (update O x a))) (change x)).
    apply sum_perm, Hp.
Qed.

(** All values at some points in a list of answers. *)
Lemma count_constant (z : S) (is_z : S -> bool) (Z : list point) :
  NoDup answers -> In z answers -> (forall a, is_z a = true <-> a = z) -> NoDup Z ->
  forall D O, NoDup D -> incl Z D ->
  count (fun O' => forallb (fun p => is_z (at_point O' p)) Z) (oracles D O) * q ^ length Z = q ^ length D.
Proof.
  intros Ha Hz Hspec. induction Z as [|x Z IH]; intros HZ D O HD Hi.
  - simpl. rewrite Nat.mul_1_r, <- (oracles_length answers D O). unfold count. clear.
    induction (oracles D O); simpl; auto.
  - inversion HZ as [|? ? HxZ HZ']; subst.
    assert (Hr : respects (fun O' : oracle S => forallb (fun p => is_z (at_point O' p)) (x :: Z))).
    { intros O1 O2 H. apply Bool.eq_iff_eq_true. rewrite !forallb_forall. unfold at_point.
      split; intros H' p Hp; [rewrite <- H|rewrite H]; auto. }
    destruct (count_split answers _ D x HD (Hi x (or_introl eq_refl)) Hr) as (D' & HD' & HxD & Hiff & Hlen & Hs).
    rewrite Hs. simpl length. rewrite Hlen.
    assert (Hsub : incl Z D').
    { intros y Hy. destruct (proj1 (Hiff y) (Hi y (or_intror Hy))) as [->|]; auto. contradiction. }
    rewrite (sum_ext _ (fun a => if is_z a then count (fun O' => forallb (fun p => is_z (at_point O' p)) Z) (oracles D' (update O x a)) else 0)).
    2: { intros a _. destruct (is_z a) eqn:Ez.
         - apply count_ext. intros O' HO'. simpl. unfold at_point at 1. rewrite (oracles_fixed answers D' _ _ _ _ HO') by now rewrite <- surjective_pairing.
           rewrite update_at, Ez. reflexivity.
         - rewrite <- (count_false (oracles D' (update O x a))). apply count_ext. intros O' HO'. simpl. unfold at_point at 1.
           rewrite (oracles_fixed answers D' _ _ _ _ HO') by now rewrite <- surjective_pairing. rewrite update_at, Ez. reflexivity. }
    assert (Hone : forall f : S -> nat, sum (fun a => if is_z a then f a else 0) answers = f z).
    { intros f. clear - Ha Hz Hspec. induction answers as [|b l IH]; [destruct Hz|]. inversion Ha as [|? ? Hb Hl]; subst.
      simpl. destruct (is_z b) eqn:Eb.
      - apply Hspec in Eb. subst b. rewrite (sum_ext _ (fun _ => 0)); [rewrite sum_const; lia|].
        intros a Hin. destruct (is_z a) eqn:E; auto. apply Hspec in E. subst. contradiction.
      - destruct Hz as [->|Hz]; auto. exfalso. rewrite (proj2 (Hspec z) eq_refl) in Eb. discriminate. }
    rewrite Hone. simpl. rewrite (Nat.mul_comm (length answers)), Nat.mul_assoc, (IH HZ' D' _ HD' Hsub). lia.
Qed.
End Shift.

(** ** The code on such hash functions *)
Definition derive_tag {CS : CipherSuite} (mode : Mode) : bytes := str "DeriveKeyPair" ++ contextString (CS := CS) (mode_id mode).
Definition key_points {CS : CipherSuite} (mode : Mode) (info : bytes) : list point :=
  map (fun c => (lv info ++ I2OSP c 1, derive_tag (CS := CS) mode)) u8_range_inclusive.
Fixpoint first_value {CS : CipherSuite} (at_ : point -> scalar CS) (ps : list point) : option (scalar CS) :=
  match ps with
  | [] => None
  | p :: ps => if is_zero_scalar (CSGroup CS) (at_ p) then first_value at_ ps else Some (at_ p)
  end.
Definition the_keys {CS : CipherSuite} (mode : Mode) (k : option (scalar CS)) : res (scalar CS * option (elem CS)) :=
  match k with
  | None => Err EProtocol
  | Some k => Ok (k, match mode with Oprf => None | _ => Some (elem_mul (CSGroup CS) (base_elem (CSGroup CS)) k) end)
  end.
Definition with_seed (seed : bytes) (p : point) : point := (seed ++ fst p, snd p).

Lemma with_seed_inj seed x y : with_seed seed x = with_seed seed y -> x = y.
Proof.
  destruct x as [m t], y as [m' t']. unfold with_seed. cbn [fst snd]. intros H.
  injection H as H1 H2. apply app_inv_head in H1. congruence.
Qed.

Section Code.
Context {CS : CipherSuite} (L : SuiteLaws CS).
Local Notation S := (scalar CS).
Local Notation G := (CSGroup CS).

Lemma find_first (value : N -> S) (p : N -> point) (at_ : point -> S) cs : (forall c, at_ (p c) = value c) ->
  match find (fun c => negb (is_zero_scalar G (value c))) cs with Some c => Ok (value c) | None => Err EProtocol end
  = match first_value at_ (map p cs) with Some k => Ok k | None => Err EProtocol end.
Proof.
  intros H. induction cs as [|c cs IH]; cbn [find map first_value]; auto.
  rewrite H. destruct (is_zero_scalar G (value c)); cbn [negb]; auto.
Qed.

Lemma derive_internal_oracle (O : oracle S) mode seed info :
  derive_key_internal (with_oracle CS O) seed info mode =
  if 65535 <? len info then Err EDeriveKeyPair
  else match first_value (fun p => at_point O (with_seed seed p)) (key_points (CS := CS) mode info) with
       | Some k => Ok k | None => Err EProtocol end.
Proof.
  destruct (65535 <? len info) eqn:E.
  - apply N.ltb_lt in E. exact (derive_key_internal_long (CS := with_oracle CS O) (oracle_laws L O) seed info mode E).
  - apply N.ltb_ge in E. unfold derive_key_internal. rewrite (dst_new_ok (CS := with_oracle CS O) (oracle_laws L O)) by (vm_compute; discriminate).
    cbn [bind]. rewrite i2osp_2_ok by auto. cbn [map_err bind].
    rewrite (derive_key_loop_spec (CS := with_oracle CS O) (oracle_laws L O)).
    exact (find_first (fun c => O (seed ++ lv info ++ I2OSP c 1) (derive_tag (CS := CS) mode))
      (fun c => (lv info ++ I2OSP c 1, derive_tag (CS := CS) mode)) (fun p => at_point O (with_seed seed p)) u8_range_inclusive
      (fun c => eq_refl)).
Qed.

Lemma keys_oracle (O : oracle S) mode seed info :
  keys_from_seed (with_oracle CS O) mode seed info =
  if 65535 <? len info then Err EDeriveKeyPair
  else the_keys mode (first_value (fun p => at_point O (with_seed seed p)) (key_points (CS := CS) mode info)).
Proof.
  unfold keys_from_seed, oprf_server_new_from_seed, voprf_server_new_from_seed, poprf_server_new_from_seed, derive_keypair.
  rewrite !derive_internal_oracle.
  destruct mode; destruct (65535 <? len info); cbn [bind]; auto; now destruct (first_value _ _).
Qed.

(** The tree of a program. *)
Fixpoint draws (ps : list point) (k : option S -> ptree (S := S)) : ptree (S := S) :=
  match ps with
  | [] => k None
  | p :: ps => PEval p (fun a => if is_zero_scalar G a then draws ps k else k (Some a))
  end.
Fixpoint user_tree (v : bool) (A : key_user CS) : ptree (S := S) :=
  match A with
  | UHash m t next => PAsk (m, t) (fun a => user_tree v (next a))
  | UKeys mode info next =>
      if 65535 <? len info then user_tree v (next (Err EDeriveKeyPair))
      else draws (key_points (CS := CS) mode info) (fun k => user_tree v (next (the_keys mode k)))
  | USay yes => PSay (Bool.eqb yes v)
  end.

(** A run: the answer and the strings and inputs. *)
Fixpoint pfinal (O F : oracle S) (h e : list point) (T : ptree (S := S)) : bool * (list point * list point) :=
  match T with
  | PAsk p next => pfinal O F (p :: h) e (next (at_point O p))
  | PEval x next => pfinal O F h (x :: e) (next (at_point F x))
  | PSay b => (b, (h, e))
  end.
Lemma pideal_final pt O F T : forall h e, pideal pt O F h e T =
  fst (pfinal O F h e T) && negb (crossed pt (fst (snd (pfinal O F h e T))) (snd (snd (pfinal O F h e T)))).
Proof. induction T; intros h e; cbn [pideal pfinal]; auto. Qed.
Lemma preal_ideal pt (O : oracle S) T : forall h e, preal pt O h e T = pideal pt O (fun m t => at_point O (pt (m, t))) h e T.
Proof.
  induction T as [p next IH|[m t] next IH|b]; intros h e; cbn [preal pideal]; auto.
Qed.

Lemma pfinal_draws O F ps (k : option S -> ptree (S := S)) : forall h e, exists e', pfinal O F h e (draws ps k) = pfinal O F h e' (k (first_value (at_point F) ps)).
Proof.
  induction ps as [|p ps IH]; intros h e; cbn [draws pfinal first_value]; [now exists e|].
  destruct (is_zero_scalar G (at_point F p)); [apply IH|eexists; reflexivity].
Qed.
Lemma pfinal_user O F v A : forall Q h e, user_hashes Q A ->
  let r := pfinal O F h e (user_tree v A) in
  fst r = Bool.eqb (uses (CS := CS) O (fun mode info => keys_from_seed (with_oracle CS F) mode [] info) A) v /\
  (length (fst (snd r)) <= length h + Q)%nat.
Proof.
  induction A as [m t next IH|mode info next IH|yes]; intros Q h e HQ r; subst r; cbn [user_hashes user_tree uses pfinal] in *.
  - destruct HQ as [H1 H2]. destruct (IH (at_point O (m, t)) (Q - 1)%nat ((m, t) :: h) e (H2 _)) as [E1 E2].
    split; [exact E1|]. etransitivity; [exact E2|]. cbn [length]. clear - H1. lia.
  - rewrite keys_oracle. destruct (65535 <? len info).
    + apply IH, HQ.
    + destruct (pfinal_draws O F (key_points (CS := CS) mode info) (fun k => user_tree v (next (the_keys mode k))) h e) as (e' & E).
      rewrite E. exact (IH (the_keys mode (first_value (at_point F) (key_points (CS := CS) mode info))) Q h e' (HQ _)).
  - cbn [fst snd]. split; [reflexivity|lia].
Qed.

Lemma uses_ext O keys keys' A : (forall mode info, keys mode info = keys' mode info) -> uses (CS := CS) O keys A = uses O keys' A.
Proof. intros H. induction A; cbn [uses]; auto. rewrite H. auto. Qed.
Lemma first_value_ext (f g : point -> S) ps : (forall p, In p ps -> f p = g p) -> first_value f ps = first_value g ps.
Proof. induction ps as [|p ps IH]; simpl; auto. intros H. rewrite <- (H p) by auto. rewrite IH; auto. Qed.

Lemma keys_shifted (O : oracle S) seed mode info :
  keys_from_seed (with_oracle CS (fun m t => at_point O (with_seed seed (m, t)))) mode [] info
  = keys_from_seed (with_oracle CS O) mode seed info.
Proof.
  rewrite !keys_oracle. destruct (65535 <? len info); auto.
Qed.

(** One seed. *)
Lemma one_seed (scalars : list S) (Hs : enumerates scalars) Q A (HQ : user_hashes Q A) v seed (points inputs : list point) O0 F0 :
  NoDup points -> NoDup inputs ->
  incl (map (with_seed seed) (evaluated scalars (user_tree v A))) points -> incl (evaluated scalars (user_tree v A)) inputs ->
  let Os := oracles scalars points O0 in let Fs := oracles scalars inputs F0 in
  (count (fun OF => Bool.eqb (uses (CS := CS) (fst OF) (fun mode info => keys_from_seed (with_oracle CS (snd OF)) mode [] info) A) v) (list_prod Os Fs)
   <= count (fun O => Bool.eqb (uses (CS := CS) O (fun mode info => keys_from_seed (with_oracle CS O) mode seed info) A) v) Os * length Fs
    + count (fun OF => let r := pfinal (fst OF) (snd OF) [] [] (user_tree v A) in
                       crossed (with_seed seed) (fst (snd r)) (snd (snd r))) (list_prod Os Fs))%nat.
Proof.
  intros Hp Hi Hip Hii Os Fs. destruct Hs as [Hnd Hall].
  pose (X0 := fun x => In x (evaluated scalars (user_tree v A))).
  pose proof (prf_equal scalars (with_seed seed) X0
    (fun x y _ _ H => with_seed_inj seed x y H)
    (user_tree v A) points inputs [] [] O0 F0 (evaluated_spec scalars _ Hall) Hp Hi) as H.
  assert (H1 : forall x : point, In x [] -> X0 x /\ ~ In (with_seed seed x) points /\ ~ In x inputs /\ at_point O0 (with_seed seed x) = at_point F0 x)
    by (intros x []).
  specialize (H H1).
  assert (H2 : forall x, X0 x -> In x [] \/ In (with_seed seed x) [] \/ In (with_seed seed x) points /\ In x inputs).
  { intros x Hx. right; right. split; [apply Hip; now apply in_map|now apply Hii]. }
  specialize (H H2). fold Os in H.
  set (real := count (fun O => Bool.eqb (uses (CS := CS) O (fun mode info => keys_from_seed (with_oracle CS O) mode seed info) A) v) Os).
  assert (Hreal : (sum (fun O => bsum (preal (with_seed seed) O [] [] (user_tree v A))) Os <= real)%nat).
  { unfold real. rewrite count_sum. apply sum_le. intros O _.
    rewrite preal_ideal, pideal_final.
    rewrite (proj1 (pfinal_user O (fun m t => at_point O (with_seed seed (m, t))) v A Q [] [] HQ)).
    rewrite (uses_ext O _ (fun mode info => keys_from_seed (with_oracle CS O) mode seed info)) by (intros; apply keys_shifted).
    destruct (Bool.eqb _ _); [|simpl; lia]. cbn [andb]. unfold bsum. destruct (negb _); lia. }
  rewrite !count_prod, <- (oracles_length scalars inputs F0) in *. fold Fs in H.
  etransitivity; [|apply Nat.add_le_mono_r, Nat.mul_le_mono_r, Hreal]. fold Fs. rewrite <- H.
  rewrite <- sum_add. apply sum_le. intros O _. cbn [fst snd]. rewrite !count_sum. fold Fs. rewrite <- sum_add. apply sum_le. intros F _.
  rewrite pideal_final, (proj1 (pfinal_user O F v A Q [] [] HQ)).
  destruct (Bool.eqb _ _), (crossed _ _ _); simpl; lia.
Qed.

Lemma few_seeds (seeds : list bytes) (l : nat) h e : NoDup seeds -> (forall s, In s seeds -> length s = l) ->
  (count (fun seed => crossed (with_seed seed) h e) seeds <= length h)%nat.
Proof.
  intros Hd Hl. unfold count. rewrite <- (map_length (fun p : point => firstn l (fst p)) h).
  apply NoDup_incl_length; [now apply NoDup_filter|].
  intros s Hs. apply filter_In in Hs as [Hin Hc]. apply crossed_spec in Hc as (x & _ & Hx).
  apply in_map_iff. exists (with_seed s x). split; auto. unfold with_seed. cbn [fst].
  rewrite <- (Hl s Hin), firstn_app, Nat.sub_diag, firstn_O, app_nil_r. apply firstn_all.
Qed.
End Code.

(* the points that a program's keys need *)
Definition user_points {CS} (scalars : list (scalar CS)) (A : key_user CS) : list point :=
  evaluated scalars (user_tree true A) ++ evaluated scalars (user_tree false A).

Lemma derived_keys {CS : CipherSuite} (L : SuiteLaws CS) (scalars : list (scalar CS)) (Hs : enumerates scalars)
  (Q : nat) (A : key_user CS) (HQ : user_hashes Q A)
  (seeds : list bytes) (l : N) (Hd : NoDup seeds) (Hl : forall seed, In seed seeds -> len seed = l)
  (points inputs : list point) (O0 F0 : oracle (scalar CS)) :
  NoDup points -> NoDup inputs -> incl (flat_map (fun seed => map (with_seed seed) (user_points scalars A)) seeds) points ->
  incl (user_points scalars A) inputs ->
  let Os := oracles scalars points O0 in
  let Fs := oracles scalars inputs F0 in
  let from_seed := count (fun '(seed, hash) => with_seed_says A hash seed) (list_prod seeds Os) in
  let independent := count (fun '(hash, other) => independent_says A hash other) (list_prod Os Fs) in
  differ_at_most Q (length seeds) from_seed (length seeds * length Os) independent (length Os * length Fs).
Proof.
  pose (ins := user_points scalars A).
  intros Hp Hi Hip Hii Os Fs from_seed independent.
  set (real := fun v seed => count (fun O => Bool.eqb (uses (CS := CS) O (fun mode info => keys_from_seed (with_oracle CS O) mode seed info) A) v) Os).
  set (ideal := fun v => count (fun OF => Bool.eqb (uses (CS := CS) (fst OF) (fun mode info => keys_from_seed (with_oracle CS (snd OF)) mode [] info) A) v) (list_prod Os Fs)).
  set (cr := fun v seed => count (fun OF => let r := pfinal (fst OF) (snd OF) [] [] (user_tree v A) in
                       crossed (with_seed seed) (fst (snd r)) (snd (snd r))) (list_prod Os Fs)).
  assert (H1 : forall v seed, In seed seeds -> (ideal v <= real v seed * length Fs + cr v seed)%nat).
  { intros v seed Hin. apply (one_seed L scalars Hs Q A HQ v seed points inputs O0 F0 Hp Hi).
    - intros p Hx. apply Hip, in_flat_map. exists seed. split; auto. apply in_map_iff in Hx as (x & <- & Hx). apply in_map.
      unfold ins, user_points. apply in_app_iff. destruct v; auto.
    - intros x Hx. apply Hii. unfold ins, user_points. apply in_app_iff. destruct v; auto. }
  assert (H2 : forall v, (sum (cr v) seeds <= length Os * length Fs * Q)%nat).
  { intros v. unfold cr. rewrite (sum_ext _ (fun seed => sum (fun OF => let r := pfinal (fst OF) (snd OF) [] [] (user_tree v A) in
       if crossed (with_seed seed) (fst (snd r)) (snd (snd r)) then 1%nat else 0%nat) (list_prod Os Fs))) by (intros; apply count_sum).
    rewrite sum_swap, <- prod_length, <- sum_const. apply sum_le. intros OF _. cbv zeta.
    rewrite <- (count_sum (fun seed => crossed (with_seed seed) (fst (snd (pfinal (fst OF) (snd OF) [] [] (user_tree v A))))
       (snd (snd (pfinal (fst OF) (snd OF) [] [] (user_tree v A)))))).
    etransitivity; [apply (few_seeds seeds (N.to_nat l)); auto; intros s Hin; specialize (Hl s Hin); unfold len in Hl; lia|].
    exact (proj2 (pfinal_user L (fst OF) (snd OF) v A Q [] [] HQ)). }
  assert (H3 : forall v, (length seeds * ideal v <= sum (real v) seeds * length Fs + length Os * length Fs * Q)%nat).
  { intros v. etransitivity; [|apply Nat.add_le_mono_l, (H2 v)].
    rewrite <- sum_const, <- sum_scale, <- sum_add. apply sum_le. auto. }
  assert (Hb : forall {B} (f : B -> bool) l', (count (fun b => Bool.eqb (f b) true) l' + count (fun b => Bool.eqb (f b) false) l' = length l')%nat).
  { intros B f l'. unfold count. induction l' as [|b l' IH]; simpl; auto. destruct (f b); simpl; lia. }
  assert (Ef : from_seed = sum (real true) seeds).
  { unfold from_seed, real, with_seed_says. rewrite count_prod. apply sum_ext. intros seed _. apply count_ext. intros O _. now destruct (uses _ _ _). }
  assert (Ei : independent = ideal true).
  { unfold independent, ideal, independent_says. apply count_ext. intros [O F] _. cbn [fst snd]. now destruct (uses _ _ _). }
  assert (Hr : (sum (real true) seeds + sum (real false) seeds = length seeds * length Os)%nat).
  { rewrite <- sum_add, <- sum_const. apply sum_ext. intros seed _. unfold real. apply Hb. }
  assert (Hid : (ideal true + ideal false = length Os * length Fs)%nat) by (rewrite <- prod_length; apply Hb).
  pose proof (H3 true) as Ht. pose proof (H3 false) as Hf'. rewrite Ef, Ei. unfold differ_at_most.
  set (a := sum (real true) seeds) in *. set (a' := sum (real false) seeds) in *.
  set (b := ideal true) in *. set (b' := ideal false) in *.
  set (n := length seeds) in *. set (o := length Os) in *. set (f := length Fs) in *. clearbody a a' b b' n o f. clear - Ht Hf' Hr Hid.
  assert (Hx : (a * f <= n * b + o * f * Q)%nat) by nia.
  split.
  - replace (n * (a * (o * f)))%nat with (n * o * (a * f))%nat by ring.
    etransitivity; [apply Nat.mul_le_mono_l; exact Hx|]. apply Nat.eq_le_incl. ring.
  - replace (n * (b * (n * o)))%nat with (n * o * (n * b))%nat by ring.
    etransitivity; [apply Nat.mul_le_mono_l; exact Ht|]. apply Nat.eq_le_incl. ring.
Qed.

(** A program that hashes at most [Q] strings tells keys made from a secret
    seed from keys made with an independent hash function with advantage at
    most [Q / |seeds|], however many keys it asks for. *)
Theorem C64_derived_keys :
  forall (CS : CipherSuite) (L : SuiteLaws CS) (scalars : list (scalar CS)), enumerates scalars ->
  forall (Q : nat) (A : key_user CS), user_hashes Q A ->
  forall (seeds : list bytes) (l : N), NoDup seeds -> (forall seed, In seed seeds -> len seed = l) ->
  exists needed needed_inputs : list point, forall (points inputs : list point) (O0 F0 : oracle (scalar CS)),
  NoDup points -> NoDup inputs -> incl needed points -> incl needed_inputs inputs ->
  let Os := oracles scalars points O0 in
  let Fs := oracles scalars inputs F0 in
  let from_seed := count (fun '(seed, hash) => with_seed_says A hash seed) (list_prod seeds Os) in
  let independent := count (fun '(hash, other) => independent_says A hash other) (list_prod Os Fs) in
  differ_at_most Q (length seeds) from_seed (length seeds * length Os) independent (length Os * length Fs).
Proof.
  intros CS L scalars Hs Q A HQ seeds l Hd Hl.
  exists (flat_map (fun seed => map (with_seed seed) (user_points scalars A)) seeds), (user_points scalars A).
  intros points inputs O0 F0. exact (derived_keys L scalars Hs Q A HQ seeds l Hd Hl points inputs O0 F0).
Qed.

(** ** Keys of an independent hash function are uniform *)
Section Uniform.
Context {CS : CipherSuite} (L : SuiteLaws CS).
Local Notation S := (scalar CS).
Local Notation G := (CSGroup CS).
Local Notation GL := (group_laws L).
Add Field scalar_field_d : (scalar_field G GL).

Definition request : Type := bytes * Mode * bytes.     (* seed, mode, info *)
Definition request_points (r : request) : list point :=
  let '(seed, mode, info) := r in map (with_seed seed) (key_points (CS := CS) mode info).

Lemma request_points_disjoint (r r' : request) p :
  length (fst (fst r)) = length (fst (fst r')) -> len (snd r) <= 65535 -> len (snd r') <= 65535 ->
  In p (request_points r) -> In p (request_points r') -> r = r'.
Proof.
  destruct r as [[seed m] info], r' as [[seed' m'] info']. cbn [fst snd request_points]. intros Hl H1 H2 Hp Hp'.
  unfold key_points in *. rewrite map_map in Hp, Hp'.
  apply in_map_iff in Hp as (c & E & _), Hp' as (c' & E' & _). rewrite <- E in E'. unfold with_seed in E'. cbn [fst snd] in E'.
  assert (Em : seed' ++ lv info' ++ I2OSP c' 1 = seed ++ lv info ++ I2OSP c 1) by exact (f_equal fst E').
  assert (Et : derive_tag (CS := CS) m' = derive_tag (CS := CS) m) by exact (f_equal snd E').
  apply app_inj_len in Em as [-> Em]; auto. apply lv_app_inj in Em as [-> Em]; auto.
  unfold derive_tag in Et. apply app_inv_head in Et. unfold contextString in Et. apply app_inv_head in Et.
  apply app_inj_len in Et as [Et _]; [|now rewrite !I2OSP_length].
  destruct m, m'; auto; vm_compute in Et; discriminate Et.
Qed.

Lemma request_points_nodup (r : request) : NoDup (request_points r) /\ length (request_points r) = 256%nat.
Proof.
  destruct r as [[seed m] info]. unfold request_points, key_points. split.
  - rewrite map_map. unfold u8_range_inclusive. rewrite map_map. cbn [with_seed fst snd].
    assert (Hi : forall x y, (x < 256)%nat -> (y < 256)%nat -> with_seed seed (lv info ++ I2OSP (N.of_nat x) 1, derive_tag (CS := CS) m)
       = with_seed seed (lv info ++ I2OSP (N.of_nat y) 1, derive_tag (CS := CS) m) -> x = y).
    { intros x y Hx Hy E. apply with_seed_inj in E. apply (f_equal fst) in E. cbn [fst] in E. apply app_inv_head in E.
      apply I2OSP_inj in E; [lia|change (256 ^ N.of_nat 1) with 256; lia|change (256 ^ N.of_nat 1) with 256; lia]. }
    assert (Hin : forall l, NoDup l -> (forall x, In x l -> (x < 256)%nat) ->
      NoDup (map (fun x => with_seed seed (lv info ++ I2OSP (N.of_nat x) 1, derive_tag (CS := CS) m)) l)).
    { intros l Hl. induction Hl as [|a l Ha Hl IH]; intros Hb; cbn [map]; constructor.
      - intros H. apply in_map_iff in H as (b & E & Hb'). apply Hi in E; [subst; contradiction|apply Hb; now right|apply Hb; now left].
      - apply IH. intros x Hx. apply Hb. now right. }
    apply Hin; [apply seq_NoDup|]. intros x Hx. apply in_seq in Hx. lia.
  - rewrite !map_length. unfold u8_range_inclusive. now rewrite map_length, seq_length.
Qed.

Definition request_key (F : oracle S) (r : request) : option S := first_value (at_point F) (request_points r).

Lemma keys_request (F : oracle S) seed mode info : len info <= 65535 ->
  keys_from_seed (with_oracle CS F) mode seed info = the_keys mode (request_key F (seed, mode, info)).
Proof.
  intros H. rewrite (keys_oracle L). apply N.ltb_ge in H. rewrite H.
  assert (E : forall ps, first_value (fun p => at_point F (with_seed seed p)) ps = first_value (at_point F) (map (with_seed seed) ps)).
  { induction ps as [|p ps IH]; cbn [first_value map]; auto. now rewrite IH. }
  unfold request_key, request_points. now rewrite E.
Qed.

(** Multiply the values at the points of some requests. *)
Definition scaled (units : list (request * S)) (p : point) (a : S) : S :=
  match find (fun ru => if in_dec point_dec p (request_points (fst ru)) then true else false) units with
  | Some (_, u) => scalar_mul G u a
  | None => a
  end.

Lemma scaled_at units r u p a :
  (forall x y, In x (map fst units) -> In y (map fst units) -> In p (request_points x) -> In p (request_points y) -> x = y) ->
  NoDup (map fst units) -> In (r, u) units -> In p (request_points r) -> scaled units p a = scalar_mul G u a.
Proof.
  intros Hd Hn Hin Hp. unfold scaled. destruct (find _ units) as [[r' u']|] eqn:E.
  - apply find_some in E as [Hin' H]. cbn [fst] in H. destruct (in_dec _ _ _) as [Hp'|]; [|discriminate].
    assert (r' = r) by (apply Hd; auto; apply in_map_iff; [exists (r', u')|exists (r, u)]; auto). subst r'.
    f_equal. clear - Hn Hin Hin'. induction units as [|[x y] l IH]; [destruct Hin|]. inversion Hn as [|? ? Hx Hn']; subst.
    destruct Hin as [E|Hin], Hin' as [E'|Hin']; auto.
    + congruence.
    + exfalso. injection E as -> ->. apply Hx. apply in_map_iff. now exists (r, u').
    + exfalso. injection E' as -> ->. apply Hx. apply in_map_iff. now exists (r, u).
  - exfalso. pose proof (find_none _ _ E (r, u) Hin) as H. cbn [fst] in H. now destruct (in_dec _ _ _).
Qed.

Lemma scaled_perm (scalars : list S) units p : enumerates scalars -> Forall (fun ru => snd ru <> zero_scalar G) units ->
  Permutation (map (scaled units p) scalars) scalars.
Proof.
  intros [Hn Hall] Hu. unfold scaled. destruct (find _ units) as [[r u]|] eqn:E; [|now rewrite map_id].
  apply find_some in E as [Hin _]. rewrite Forall_forall in Hu. specialize (Hu _ Hin). cbn [snd] in Hu.
  apply NoDup_Permutation; auto.
  - clear - L Hn Hu. induction Hn as [|a l Ha Hn IH]; cbn [map]; constructor; auto.
    intros H. apply in_map_iff in H as (b & E & Hb). enough (a = b) by (subst; contradiction).
    transitivity (scalar_mul G (scalar_mul G u a) (s_inv GL u)); [field; auto|]. rewrite <- E. field; auto.
  - intros x. split; auto. intros _. apply in_map_iff. exists (scalar_mul G x (s_inv GL u)). split; [field; auto|apply Hall].
Qed.

Lemma first_value_scaled (f g : point -> S) u ps : u <> zero_scalar G -> (forall p, In p ps -> g p = scalar_mul G u (f p)) ->
  first_value g ps = match first_value f ps with Some k => Some (scalar_mul G u k) | None => None end.
Proof.
  intros Hu. induction ps as [|p ps IH]; cbn [first_value]; auto. intros H.
  assert (E : is_zero_scalar G (g p) = is_zero_scalar G (f p)).
  { rewrite (H p) by now left. apply Bool.eq_iff_eq_true. rewrite !(is_zero_spec G GL). split; intros E.
    - transitivity (scalar_mul G (scalar_mul G u (f p)) (s_inv GL u)); [field; auto|]. rewrite E. ring.
    - rewrite E. ring. }
  rewrite E. destruct (is_zero_scalar G (f p)); [apply IH; intros q Hq; apply H; now right|].
  now rewrite (H p) by now left.
Qed.

Definition gives (F : oracle S) (rk : request * S) : bool :=
  match request_key F (fst rk) with Some k => scalar_ct_eq G k (snd rk) | None => false end.

Lemma gives_scaled (units : list (request * S)) (F : oracle S) r u k k' :
  (forall p x y, In x (map fst units) -> In y (map fst units) -> In p (request_points x) -> In p (request_points y) -> x = y) ->
  NoDup (map fst units) -> In (r, u) units -> u <> zero_scalar G -> k' = scalar_mul G u k ->
  gives (fun m t => scaled units (m, t) (F m t)) (r, k') = gives F (r, k).
Proof.
  intros Hd Hn Hin Hu ->. unfold gives, request_key. cbn [fst snd].
  rewrite (first_value_scaled (at_point F) _ u (request_points r) Hu).
  - destruct (first_value (at_point F) (request_points r)) as [v|]; auto.
    apply Bool.eq_iff_eq_true. rewrite !(scalar_ct_eq_spec G GL). split; intros E; [|now rewrite E].
    transitivity (scalar_mul G (scalar_mul G u v) (s_inv GL u)); [field; auto|]. rewrite E. field; auto.
  - intros p Hp. unfold at_point. rewrite <- surjective_pairing. exact (scaled_at units r u p _ (Hd p) Hn Hin Hp).
Qed.

Lemma unit_facts (k k' : S) : k <> zero_scalar G -> k' <> zero_scalar G ->
  scalar_mul G k' (s_inv GL k) <> zero_scalar G /\ k' = scalar_mul G (scalar_mul G k' (s_inv GL k)) k.
Proof.
  intros H H'. split; [|field; auto]. intros E. apply H'.
  transitivity (scalar_mul G (scalar_mul G k' (s_inv GL k)) k); [field; auto|]. rewrite E. ring.
Qed.

Lemma gives_respects rks : respectsN (fun F : oracle S => if forallb (gives F) rks then 1%nat else 0%nat).
Proof.
  intros F F' H. assert (E : forall rk, gives F rk = gives F' rk).
  { intros rk. unfold gives, request_key. rewrite (first_value_ext (at_point F) (at_point F')); auto. intros p _. apply H. }
  assert (E' : forallb (gives F) rks = forallb (gives F') rks); [|now rewrite E'].
  induction rks as [|rk rks IH]; cbn [forallb]; auto. now rewrite E, IH.
Qed.

Lemma forallb_pairs (F : oracle S) : forall (rs : list request) (ks ks' : list S), length ks = length rs -> length ks' = length rs ->
  forallb (gives F) (combine rs ks) = forallb (fun t => gives F (fst t, fst (snd t))) (combine rs (combine ks ks')) /\
  forallb (gives F) (combine rs ks') = forallb (fun t => gives F (fst t, snd (snd t))) (combine rs (combine ks ks')).
Proof.
  induction rs as [|r rs IH]; intros [|k ks] [|k' ks'] H H'; try discriminate; [split; reflexivity|].
  injection H as H. injection H' as H'. destruct (IH ks ks' H H') as [E E']. cbn [combine forallb fst snd]. now rewrite E, E'.
Qed.

Lemma gives_keys (F : oracle S) : forall (rs : list request) (ks : list S), (forall r, In r rs -> len (snd r) <= 65535) ->
  forallb (fun '((seed, mode, info), k) => match keys_from_seed (with_oracle CS F) mode seed info with
    | Ok (sk, _) => scalar_ct_eq G sk k | _ => false end) (combine rs ks) = forallb (gives F) (combine rs ks).
Proof.
  induction rs as [|[[seed mode] info] rs IH]; intros [|k ks] H; auto.
  cbn [combine forallb]. rewrite IH by (intros r Hr; apply H; now right). f_equal.
  rewrite keys_request by (apply (H (seed, mode, info)); now left).
  unfold gives. cbn [fst snd]. now destruct (request_key _ _).
Qed.

Lemma no_first (f : point -> S) ps : first_value f ps = None <-> forallb (fun p => is_zero_scalar G (f p)) ps = true.
Proof.
  induction ps as [|p ps IH]; cbn [first_value forallb]; [tauto|].
  destruct (is_zero_scalar G (f p)); cbn [andb]; auto. split; discriminate.
Qed.
End Uniform.

(** The keys of servers for different seeds, modes and infos (the seeds of one
    length, C16): every list of scalars other than zero is as likely as every
    other, and [new_from_seed] fails with probability q^-256. *)
Theorem C64_uniform_keys :
  forall (CS : CipherSuite) (L : SuiteLaws CS) (scalars : list (scalar CS)), enumerates scalars ->
  forall (requests : list (bytes * Mode * bytes)) (l : N), NoDup requests ->
  (forall seed mode info, In (seed, mode, info) requests -> len seed = l /\ len info <= 65535) ->
  exists needed : list point, forall (points : list point) (F0 : oracle (scalar CS)), NoDup points -> incl needed points ->
  let all := oracles scalars points F0 in
  let number (keys : list (scalar CS)) := count (fun F =>
    forallb (fun '((seed, mode, info), k) => match keys_from_seed (with_oracle CS F) mode seed info with
      | Ok (sk, _) => scalar_ct_eq (CSGroup CS) sk k | _ => false end) (combine requests keys)) all in
  let nonzero (keys : list (scalar CS)) := length keys = length requests /\ Forall (fun k => k <> zero_scalar (CSGroup CS)) keys in
  (forall keys keys', nonzero keys -> nonzero keys' -> number keys = number keys') /\
  (forall seed mode info, In (seed, mode, info) requests ->
     (count (fun F => match keys_from_seed (with_oracle CS F) mode seed info with Ok _ => false | _ => true end) all
      * length scalars ^ 256 = length all)%nat).
Proof.
  intros CS L scalars Hs requests l Hn Hr.
  assert (Hl : forall r, In r requests -> len (snd r) <= 65535) by (intros [[seed m] info] H; exact (proj2 (Hr _ _ _ H))).
  assert (Hd : forall p x y, In x requests -> In y requests -> In p (request_points (CS := CS) x) -> In p (request_points (CS := CS) y) -> x = y).
  { intros p [[sx mx] ix] [[sy my] iy] Hx Hy. apply request_points_disjoint; cbn [fst snd].
    - pose proof (proj1 (Hr _ _ _ Hx)). pose proof (proj1 (Hr _ _ _ Hy)). unfold len in *. lia.
    - exact (proj2 (Hr _ _ _ Hx)).
    - exact (proj2 (Hr _ _ _ Hy)). }
  exists (flat_map (request_points (CS := CS)) requests). intros points F0 Hp Hi all number nonzero.
  assert (En : forall keys, number keys = sum (fun F => if forallb (gives F) (combine requests keys) then 1%nat else 0%nat) all).
  { intros keys. unfold number. rewrite count_sum. apply sum_ext. intros F _. now rewrite (gives_keys L). }
  split.
  - intros keys keys' [Hk1 Hk2] [Hk1' Hk2']. rewrite !En. unfold all.
    set (inv := s_inv (group_laws L)).
    set (T := combine requests (combine keys keys')).
    set (units := map (fun t : request * (scalar CS * scalar CS) => (fst t, scalar_mul (CSGroup CS) (snd (snd t)) (inv (fst (snd t))))) T).
    assert (Hfst : map fst units = requests).
    { unfold units. rewrite map_map. cbn [fst]. unfold T.
      assert (Hlen : length (combine keys keys') = length requests) by (rewrite combine_length; lia).
      clear - Hlen. revert Hlen. generalize (combine keys keys') as kk. induction requests as [|r rs IH]; intros [|k kk] H; try discriminate; auto.
      cbn [combine map fst]. f_equal. apply IH. now injection H. }
    assert (HT : forall t, In t T -> fst (snd t) <> zero_scalar (CSGroup CS) /\ snd (snd t) <> zero_scalar (CSGroup CS)).
    { intros [r [k k']] Hin. unfold T in Hin. apply in_combine_r in Hin. cbn [fst snd]. rewrite Forall_forall in Hk2, Hk2'.
      split; [apply Hk2; eapply in_combine_l; eauto|apply Hk2'; eapply in_combine_r; eauto]. }
    assert (Hun : forall t, In t T -> scalar_mul (CSGroup CS) (snd (snd t)) (inv (fst (snd t))) <> zero_scalar (CSGroup CS)).
    { intros t Ht. destruct (HT t Ht) as [H1 H2]. exact (proj1 (unit_facts L _ _ H1 H2)). }
    rewrite <- (sum_permuted scalars points (scaled units) F0 (fun F => if forallb (gives F) (combine requests keys') then 1%nat else 0%nat) Hp).
    + apply sum_ext. intros F _. cbv beta.
      enough (E : forallb (gives F) (combine requests keys) =
        forallb (gives (fun m t0 => scaled units (m, t0) (F m t0))) (combine requests keys')) by now rewrite E.
      etransitivity; [exact (proj1 (forallb_pairs F requests keys keys' Hk1 Hk1'))|].
      etransitivity; [|exact (eq_sym (proj2 (forallb_pairs _ requests keys keys' Hk1 Hk1')))].
      change (combine requests (combine keys keys')) with T.
      match goal with |- forallb _ ?l = _ => change l with T end.
      match goal with |- _ = forallb _ ?l => change l with T end.
      assert (Hx : forall t, In t T -> gives (fun m t0 => scaled units (m, t0) (F m t0)) (fst t, snd (snd t)) = gives F (fst t, fst (snd t))).
      { intros t Ht. apply (gives_scaled L units F (fst t) (scalar_mul (CSGroup CS) (snd (snd t)) (inv (fst (snd t))))).
        - rewrite Hfst. exact Hd.
        - rewrite Hfst. exact Hn.
        - unfold units. apply in_map_iff. exists t. auto.
        - auto.
        - exact (proj2 (unit_facts L _ _ (proj1 (HT t Ht)) (proj2 (HT t Ht)))). }
      clear - Hx. revert Hx. clearbody units T. induction T as [|t T' IH]; intros Hx; cbn [forallb]; auto.
      apply f_equal2; [exact (eq_sym (Hx t (or_introl eq_refl)))|]. apply IH. intros t' Ht'. exact (Hx t' (or_intror Ht')).
    + apply gives_respects.
    + intros p. apply (scaled_perm L); auto. apply Forall_forall. intros ru Hin. unfold units in Hin. apply in_map_iff in Hin as (t & <- & Ht).
      cbn [snd]. auto.
    + intros p a Hnp. unfold scaled. destruct (find _ units) as [[r u]|] eqn:E; auto. exfalso. apply Hnp, Hi.
      apply find_some in E as [Hin H]. cbn [fst] in H. destruct (in_dec _ _ _) as [Hpr|]; [|discriminate].
      apply in_flat_map. exists r. split; auto. rewrite <- Hfst. apply in_map_iff. now exists (r, u).
  - intros seed mode info Hin. destruct (Hr _ _ _ Hin) as [_ Hinfo].
    destruct (request_points_nodup (CS := CS) (seed, mode, info)) as [Hnd Hlen].
    assert (Hz : (count (fun F => forallb (fun p => is_zero_scalar (CSGroup CS) (at_point F p)) (request_points (CS := CS) (seed, mode, info))) all
      * length scalars ^ length (request_points (CS := CS) (seed, mode, info)) = length scalars ^ length points)%nat).
    { apply (count_constant scalars (zero_scalar (CSGroup CS)) (is_zero_scalar (CSGroup CS))); auto.
      - apply Hs.
      - apply Hs.
      - apply (is_zero_spec _ (group_laws L)).
      - intros p Hp'. apply Hi, in_flat_map. eauto. }
    rewrite Hlen in Hz. rewrite <- (oracles_length scalars points F0) in Hz. fold all in Hz. rewrite <- Hz. f_equal.
    apply count_ext. intros F _. rewrite (keys_request L) by auto.
    apply Bool.eq_iff_eq_true. rewrite <- no_first. unfold request_key. destruct (first_value _ _); cbn [the_keys]; split; congruence.
Qed.

(** A server made by [new]: with a tape of random bytes. *)
Definition keys_of_new (CS : CipherSuite) (mode : Mode) (tape : bytes) : res (scalar CS * option (elem CS)) :=
  let R := PropUniform.TapeRng in
  match mode with
  | Oprf => match fst (oprf_server_new CS R tape) with
            | Ok s => Ok (oprf_sk s, None) | Err e => Err e | Panic => Panic | Diverge => Diverge end
  | Voprf => match fst (voprf_server_new CS R tape) with
             | Ok s => Ok (voprf_sk s, Some (voprf_pk s)) | Err e => Err e | Panic => Panic | Diverge => Diverge end
  | Poprf => match fst (poprf_server_new CS R tape) with
             | Ok s => Ok (poprf_sk s, Some (poprf_pk s)) | Err e => Err e | Panic => Panic | Diverge => Diverge end
  end.
Definition new_says {CS} (A : key_user CS) (hash : oracle (scalar CS)) (tape : bytes) : bool :=
  uses (CS := CS) hash (fun mode _ => keys_of_new (with_oracle CS hash) mode tape) A.
Definition independent_new_says {CS} (A : key_user CS) (hash other : oracle (scalar CS)) : bool :=
  uses (CS := CS) hash (fun mode _ => keys_from_seed (with_oracle CS other) mode [] []) A.

Lemma new_from_tape (CS : CipherSuite) mode tape : length tape = N.to_nat (scalar_len (CSGroup CS)) ->
  keys_of_new CS mode tape = keys_from_seed CS mode tape [].
Proof.
  intros H. unfold keys_of_new, keys_from_seed, oprf_server_new, voprf_server_new, poprf_server_new. cbn [fill_bytes PropUniform.TapeRng].
  rewrite <- H, firstn_all, Nat.sub_diag, app_nil_r. reflexivity.
Qed.

Lemma strings_length n : length (PropUniform.strings n) = (256 ^ n)%nat.
Proof.
  induction n as [|n IH]; [reflexivity|].
  cbn [PropUniform.strings]. rewrite length_flat_map, (sum_ext _ (fun _ => (256 ^ n)%nat)).
  - rewrite sum_const. change (length PropUniform.all_bytes) with 256%nat. cbn [Nat.pow]. reflexivity.
  - intros b _. now rewrite map_length.
Qed.

Fixpoint without_info {CS} (A : key_user CS) : key_user CS :=
  match A with
  | UHash m t next => UHash m t (fun a => without_info (next a))
  | UKeys mode _ next => UKeys mode [] (fun r => without_info (next r))
  | USay yes => USay yes
  end.
Lemma uses_without_info {CS} (O : oracle (scalar CS)) keys (A : key_user CS) :
  uses O keys (without_info A) = uses O (fun mode _ => keys mode []) A.
Proof. induction A; cbn [uses without_info]; auto. Qed.
Lemma without_info_hashes {CS} (A : key_user CS) : forall Q, user_hashes Q A -> user_hashes Q (without_info A).
Proof. induction A; intros Q; cbn [user_hashes without_info]; auto. intros [H1 H2]. auto. Qed.

(** All tapes of as many bytes as [new] draws, and all hash functions. *)
Theorem C64_new_servers :
  forall (CS : CipherSuite) (L : SuiteLaws CS) (scalars : list (scalar CS)), enumerates scalars ->
  forall (Q : nat) (A : key_user CS), user_hashes Q A ->
  exists needed needed_inputs : list point, forall (points inputs : list point) (O0 F0 : oracle (scalar CS)),
  NoDup points -> NoDup inputs -> incl needed points -> incl needed_inputs inputs ->
  let Os := oracles scalars points O0 in
  let Fs := oracles scalars inputs F0 in
  let tapes := PropUniform.strings (N.to_nat (scalar_len (CSGroup CS))) in
  let of_new := count (fun '(tape, hash) => new_says A hash tape) (list_prod tapes Os) in
  let independent := count (fun '(hash, other) => independent_new_says A hash other) (list_prod Os Fs) in
  N.of_nat (length tapes) = 256 ^ scalar_len (CSGroup CS) /\
  differ_at_most Q (length tapes) of_new (length tapes * length Os) independent (length Os * length Fs).
Proof.
  intros CS L scalars Hs Q A HQ.
  destruct (C64_derived_keys CS L scalars Hs Q (without_info A) (without_info_hashes A Q HQ)
    (PropUniform.strings (N.to_nat (scalar_len (CSGroup CS)))) (scalar_len (CSGroup CS))) as (needed & needed_inputs & H).
  - apply PropUniform.strings_nodup.
  - intros seed Hin. apply PropUniform.strings_in in Hin. unfold len. lia.
  - exists needed, needed_inputs. intros points inputs O0 F0 Hp Hi Hip Hii Os Fs tapes of_new independent.
    specialize (H points inputs O0 F0 Hp Hi Hip Hii). cbv zeta in H. fold Os Fs tapes in H. split.
    { unfold tapes. rewrite strings_length, Nat2N.inj_pow. now rewrite N2Nat.id. }
    assert (E1 : of_new = count (fun '(seed, hash) => with_seed_says (without_info A) hash seed) (list_prod tapes Os)).
    { apply count_ext. intros [tape hash] Hin. unfold new_says, with_seed_says. rewrite uses_without_info. apply uses_ext.
      intros mode info. apply in_prod_iff in Hin as [Hin _]. apply PropUniform.strings_in in Hin.
      exact (new_from_tape (with_oracle CS hash) mode tape Hin). }
    assert (E2 : independent = count (fun '(hash, other) => independent_says (without_info A) hash other) (list_prod Os Fs)).
    { apply count_ext. intros [hash other] _. unfold independent_new_says, independent_says. now rewrite uses_without_info. }
    rewrite E1, E2. exact H.
Qed.

(** Cases.  A program that guesses the seed computes the key itself: it says
    yes to that seed, and no to another and to an independent function; one
    that asks for the key of the same info twice gets the same one from all. *)
Definition ex_seed_guess : key_user TS :=
  UKeys Voprf ex_info (fun r => UHash (bstr "seed" ++ lv ex_info ++ I2OSP 0 1) (derive_tag (CS := TS) Voprf) (fun a =>
    USay match r with Ok (sk, _) => scalar_ct_eq (CSGroup TS) sk a | _ => false end)).
Definition ex_same_key : key_user TS :=
  UKeys Poprf ex_info (fun r => UKeys Poprf ex_info (fun r' => USay
    match r, r' with Ok (sk, Some pk), Ok (sk', Some pk') => scalar_ct_eq (CSGroup TS) sk sk' && elem_ct_eq (CSGroup TS) pk pk' | _, _ => false end)).
Definition ex_derive_hash : oracle (scalar TS) := fun m t => HashToScalar TL m t.
Definition ex_other_hash : oracle (scalar TS) := fun m t => ex_scalar 7.
Definition ex_uses (A : key_user TS) (seed : bytes) : bool := with_seed_says A ex_derive_hash seed.
Definition ex_independent (A : key_user TS) : bool := independent_says A ex_derive_hash ex_other_hash.
Definition ex_requests : list (bytes * Mode * bytes) :=
  [(bstr "seed", Voprf, ex_info); (bstr "seed", Poprf, ex_info); (bstr "seed", Voprf, []); (bstr "tree", Oprf, [])].

Example C64_case :
  user_hashes 1 ex_seed_guess /\ user_hashes 0 ex_same_key /\
  NoDup [bstr "seed"; bstr "tree"] /\ (forall s, In s [bstr "seed"; bstr "tree"] -> len s = 4) /\
  [ex_uses ex_seed_guess (bstr "seed"); ex_uses ex_seed_guess (bstr "tree"); ex_independent ex_seed_guess] = [true; false; false] /\
  [ex_uses ex_same_key (bstr "seed"); ex_uses ex_same_key (bstr "tree"); ex_independent ex_same_key] = [true; true; true] /\
  NoDup ex_requests /\ (forall s m i, In (s, m, i) ex_requests -> len s = 4 /\ len i <= 65535).
Proof.
  split; [unfold ex_seed_guess; cbn [user_hashes]; intros r; split; auto|]. split; [unfold ex_same_key; cbn [user_hashes]; intros r r'; exact I|].
  split. { repeat constructor; simpl; intuition discriminate. }
  split. { intros s [<-|[<-|[]]]; reflexivity. }
  split; [vm_compute; reflexivity|]. split; [vm_compute; reflexivity|].
  split. { repeat constructor; simpl; intuition discriminate. }
  intros s m i Hin. simpl in Hin.
  repeat match goal with H : _ \/ _ |- _ => destruct H as [H|H] end; try contradiction; injection Hin as <- <- <-; vm_compute; split; congruence.
Qed.
