(** Proofs for C85. *)
From Coq Require Import Lia.
From Verif Require Import PyBase PyProofs LineModel LineSpec LineProofs PropertyModel PropertyProofs PropertyProofs3 ParamModel ParamSpec.

Lemma put_lookup key l ps k : lookup k (put_param key l ps) = if beq k key then l else lookup k ps.
Proof.
  induction ps as [|[k' m] ps IH]; cbn [put_param lookup].
  - rewrite (beq_sym k key). reflexivity.
  - destruct (beq_case k' key) as [[-> E]|[N E]]; rewrite E; cbn [lookup].
    + rewrite (beq_sym k key). destruct (beq key k); reflexivity.
    + rewrite IH. destruct (beq_case k' k) as [[-> E']|[N' ->]]; [rewrite E', E; reflexivity|reflexivity].
Qed.
Lemma add_lookup key a ps k : lookup k (add_param key a ps) = if beq k key then lookup k ps ++ [a] else lookup k ps.
Proof.
  induction ps as [|[k' m] ps IH]; cbn [add_param lookup].
  - rewrite (beq_sym k key). destruct (beq key k); reflexivity.
  - destruct (beq_case k' key) as [[-> E]|[N E]]; rewrite E; cbn [lookup].
    + rewrite (beq_sym k key). destruct (beq key k); reflexivity.
    + rewrite IH. destruct (beq_case k' k) as [[-> E']|[N' ->]]; [rewrite E', E; reflexivity|reflexivity].
Qed.
Lemma del_lookup key ps k : lookup k (del_param key ps) = if beq k key then [] else lookup k ps.
Proof.
  rewrite !assoc_lookup. destruct (beq_case k key) as [[-> ->]|[N ->]]; [rewrite assoc_del; reflexivity|].
  rewrite assoc_del_other by exact N. reflexivity.
Qed.
Lemma put_keys key l ps k : In k (map fst (put_param key l ps)) -> k = key \/ In k (map fst ps).
Proof.
  induction ps as [|[k' m] ps IH]; cbn [put_param map fst In]; [intuition|].
  destruct (beq k' key); cbn [map fst In]; intuition.
Qed.
Lemma put_dict key l ps : l <> [] -> dict_ok ps -> dict_ok (put_param key l ps).
Proof.
  intros NE [N F]. split.
  - clear F. induction ps as [|[k' m] ps IH]; cbn [put_param map fst] in *; [repeat constructor; intros []|]. inversion N; subst.
    destruct (beq_case k' key) as [[-> E]|[NK E]]; rewrite E; cbn [map fst]; [exact N|]. constructor; [|auto].
    intro I. apply put_keys in I. destruct I as [I|I]; [congruence|contradiction].
  - clear N. induction F as [|[k' m] ps H F IH]; cbn [put_param]; [repeat constructor; exact NE|]. destruct (beq k' key); constructor; auto.
Qed.
Lemma add_put key a ps : add_param key a ps = put_param key (lookup key ps ++ [a]) ps.
Proof.
  induction ps as [|[k' m] ps IH]; cbn [add_param lookup put_param]; [reflexivity|]. destruct (beq k' key); [reflexivity|]. rewrite IH. reflexivity.
Qed.
Lemma del_dict key ps : dict_ok ps -> dict_ok (del_param key ps).
Proof. intros [N F]. split; [apply del_NoDup; exact N|apply del_Forall; exact F]. Qed.

(** setParameters. *)
Lemma set_fold l : forall ps k, NoDup (map (fun kv => upper (fst kv)) l) ->
  lookup k (fold_left (fun ps kv => put_param (upper (fst kv)) (snd kv) ps) l ps) =
  match find (fun kv => beq (upper (fst kv)) k) l with Some kv => snd kv | None => lookup k ps end.
Proof.
  induction l as [|[n v] l IH]; intros ps k N; [reflexivity|]. cbn [map fst] in N. inversion N as [|? ? NI N']; subst. cbn [fold_left find fst snd]. rewrite IH by exact N'.
  rewrite put_lookup, (beq_sym k). destruct (beq_case (upper n) k) as [[E ->]|[E ->]]; [|reflexivity].
  destruct (find _ l) as [[n' v']|] eqn:F; [|reflexivity]. exfalso. apply find_some in F. destruct F as [I Q]. apply beq_eq in Q. cbn [fst] in Q.
  apply NI. apply in_map_iff. exists (n', v'). split; [cbn [fst]; congruence|exact I].
Qed.
Lemma set_dict l : forall ps, Forall (fun kv => snd kv <> []) l -> dict_ok ps ->
  dict_ok (fold_left (fun ps kv => put_param (upper (fst kv)) (snd kv) ps) l ps).
Proof. induction l as [|[n v] l IH]; intros ps F D; [exact D|]. inversion F; subst. cbn [fold_left fst snd]. apply IH; [assumption|]. apply put_dict; assumption. Qed.

(** The first parameter under a name. *)
Lemma dict_first n ps : dict_ok ps -> first_param n ps = match lookup (upper n) ps with a :: _ => Ok a | [] => Raise KeyError end.
Proof.
  intros [_ F]. unfold first_param. rewrite assoc_lookup. destruct (assoc (upper n) ps) as [[|a r]|] eqn:E; [|reflexivity|reflexivity].
  exfalso. apply assoc_some in E. rewrite Forall_forall in F. apply (F _ E). reflexivity.
Qed.
Lemma first_run n f ps : dict_ok ps ->
  on_first n f ps = match lookup (upper n) ps with
                    | [] => Raise KeyError
                    | a :: r => do b <- f a; Ok (put_param (upper n) (b :: r) ps)
                    end.
Proof.
  intro D. unfold on_first. rewrite dict_first by exact D. rewrite assoc_lookup. destruct (assoc (upper n) ps) as [[|a r]|]; reflexivity.
Qed.

Definition done (e : pedit) (ps : params) : params := match pedit_run e ps with Ok qs => qs | Raise _ => ps end.
Lemma first_done n f g ps : dict_ok ps -> (forall a, f a = Ok (g a) \/ g a = a /\ exists x, f a = Raise x) ->
  let qs := match on_first n f ps with Ok qs => qs | Raise _ => ps end in
  dict_ok qs /\ forall k, lookup k qs = at_key (upper n) (first_changed g (lookup (upper n) ps)) (fun k => lookup k ps) k.
Proof.
  intros D H. cbv zeta. rewrite first_run by exact D. unfold at_key. destruct (lookup (upper n) ps) as [|a r] eqn:E; cbn [first_changed].
  - split; [exact D|]. intro k. destruct (beq_case k (upper n)) as [[-> ->]|[_ ->]]; [exact E|reflexivity].
  - destruct (H a) as [-> |[G [x ->]]]; cbn [rbind].
    + split; [apply put_dict; [discriminate|exact D]|]. intro k. apply put_lookup.
    + split; [exact D|]. intro k. rewrite G. destruct (beq_case k (upper n)) as [[-> ->]|[_ ->]]; [exact E|reflexivity].
Qed.
Lemma remove_without v l : remove_first v l = Ok (without v l) \/ without v l = l /\ exists x, remove_first v l = Raise x.
Proof.
  induction l as [|y l IH]; cbn [remove_first without]; [right; split; [reflexivity|eexists; reflexivity]|].
  destruct (beq y v); [left; reflexivity|]. destruct IH as [-> |[E [x ->]]]; [left; reflexivity|]. right. rewrite E. split; [reflexivity|]. eexists; reflexivity.
Qed.
Lemma done_ok e ps : sound e -> dict_ok ps -> dict_ok (done e ps) /\ forall k, lookup k (done e ps) = effect (fun k => lookup k ps) e k.
Proof.
  intros S D. unfold done. destruct e as [a|a|n|l|n m|n l|n v|n v]; cbn [pedit_run effect].
  - unfold addParameter. rewrite add_put. split; [apply put_dict; [destruct (lookup _ ps); discriminate|exact D]|]. intro k. apply put_lookup.
  - split; [apply put_dict; [discriminate|exact D]|]. intro k. apply put_lookup.
  - split; [apply del_dict; exact D|]. intro k. apply del_lookup.
  - destruct S as [N F]. split; [apply set_dict; [exact F|split; constructor]|]. intro k. unfold setParameters. rewrite set_fold by exact N. reflexivity.
  - apply (first_done n (fun a => Ok (m, snd a)) (fun a => (m, snd a)) ps D). intro a. left. reflexivity.
  - apply (first_done n (fun a => Ok (fst a, l)) (fun a => (fst a, l)) ps D). intro a. left. reflexivity.
  - apply (first_done n (fun a => Ok (fst a, snd a ++ [v])) (fun a => (fst a, snd a ++ [v])) ps D). intro a. left. reflexivity.
  - apply (first_done n (fun a => do l <- remove_first v (snd a); Ok (fst a, l)) (fun a => (fst a, without v (snd a))) ps D).
    intros [m l]. cbn [fst snd]. destruct (remove_without v l) as [-> |[E [x ->]]]; [left; reflexivity|]. right. rewrite E. split; [reflexivity|]. exists x. reflexivity.
Qed.
Lemma effect_ext f g e : (forall k, f k = g k) -> forall k, effect f e k = effect g e k.
Proof. intros H k. destruct e; cbn [effect]; unfold at_key; rewrite ?H; reflexivity. Qed.
Lemma effects_ext es : forall f g, (forall k, f k = g k) -> forall k, fold_left effect es f k = fold_left effect es g k.
Proof. induction es as [|e es IH]; intros f g H k; [apply H|]. cbn [fold_left]. apply IH. apply effect_ext. exact H. Qed.
Lemma edits_ok es : forall ps, Forall sound es -> dict_ok ps ->
  dict_ok (pedits es ps) /\ forall k, lookup k (pedits es ps) = fold_left effect es (fun k => lookup k ps) k.
Proof.
  induction es as [|e es IH]; intros ps F D; [split; [exact D|reflexivity]|]. inversion F as [|? ? S F']; subst.
  destruct (done_ok e ps S D) as [D1 L1]. unfold pedits. cbn [fold_left]. fold (done e ps). destruct (IH (done e ps) F' D1) as [D2 L2].
  split; [exact D2|]. intro k. etransitivity; [apply L2|]. apply effects_ext. exact L1.
Qed.
Lemma dict_params ps : dict_ok ps -> (forall k a, In a (lookup k ps) -> param_ok k a) -> params_ok ps.
Proof.
  intros [N F] H. split; [exact N|]. apply Forall_forall. intros [k l] I. cbn [fst snd]. rewrite Forall_forall in F. split; [exact (F _ I)|].
  apply Forall_forall. intros a J. apply H. rewrite assoc_lookup, (assoc_in k ps l N I). exact J.
Qed.
Lemma params_dict ps : params_ok ps -> dict_ok ps.
Proof. intros [N F]. split; [exact N|]. eapply Forall_impl; [|exact F]. intros kv H. apply H. Qed.

(** Calls about VALUE. *)
Lemma put_del key l ps : del_param key (put_param key l ps) = del_param key ps.
Proof.
  induction ps as [|[k' m] ps IH]; cbn [put_param del_param]; [rewrite (proj2 (beq_eq _ _) eq_refl); reflexivity|].
  destruct (beq k' key) eqn:E; cbn [del_param]; rewrite E; [reflexivity|rewrite IH; reflexivity].
Qed.
Lemma del_del key ps : del_param key (del_param key ps) = del_param key ps.
Proof. apply del_absent. intro H. apply del_keys in H. tauto. Qed.
Lemma first_del n f ps : match on_first n f ps with Ok qs => del_param (upper n) qs | Raise _ => del_param (upper n) ps end = del_param (upper n) ps.
Proof.
  unfold on_first, first_param. destruct (assoc (upper n) ps) as [[|a r]|]; cbn [rbind]; try reflexivity.
  destruct (f a); cbn [rbind]; [apply put_del|reflexivity].
Qed.
Lemma done_about k e ps : about k e -> del_param k (done e ps) = del_param k ps.
Proof.
  unfold done. destruct e as [a|a|n|l|n m|n l|n v|n v]; cbn [about pedit_run]; intro A; try contradiction; subst k.
  - unfold addParameter. rewrite add_put. apply put_del.
  - apply put_del.
  - apply del_del.
  - pose proof (first_del n (fun a => Ok (m, snd a)) ps) as H. destruct (on_first _ _ _); exact H.
  - pose proof (first_del n (fun a => Ok (fst a, l)) ps) as H. destruct (on_first _ _ _); exact H.
  - pose proof (first_del n (fun a => Ok (fst a, snd a ++ [v])) ps) as H. destruct (on_first _ _ _); exact H.
  - pose proof (first_del n (fun a => do l <- remove_first v (snd a); Ok (fst a, l)) ps) as H. destruct (on_first _ _ _); exact H.
Qed.
Lemma edits_about k es : forall ps, Forall (about k) es -> del_param k (pedits es ps) = del_param k ps.
Proof.
  induction es as [|e es IH]; intros ps F; [reflexivity|]. inversion F; subst. unfold pedits. cbn [fold_left]. fold (done e ps).
  etransitivity; [apply IH; assumption|]. apply done_about. assumption.
Qed.
Lemma setup_del name ps qs v : del_param (lit "VALUE") ps = del_param (lit "VALUE") qs -> setupValueParameter name ps v = setupValueParameter name qs v.
Proof. intro H. unfold setupValueParameter. rewrite H. reflexivity. Qed.
