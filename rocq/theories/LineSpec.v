(** What the content line theorems are stated with. *)
From Verif Require Import PyBase LineModel TextSpec.
From Coq Require Export Permutation.

(** mParameters[key], [] when absent. *)
Fixpoint lookup (key : bytes) (ps : params) : list param :=
  match ps with
  | [] => []
  | (k, l) :: r => if beq k key then l else lookup key r
  end.

(** Same names, same values in some order, for every key. *)
Definition same_param (p q : param) : Prop := fst p = fst q /\ Permutation (snd p) (snd q).
Definition same_params (ps qs : params) : Prop := forall k, Forall2 same_param (lookup k ps) (lookup k qs).

(** The text does not start with a blank or a double quote. *)
Definition starts_ok (s : bytes) : Prop :=
  match s with c :: _ => c <> SPC /\ c <> DQUOTE | [] => True end.

(** Number of backslashes at the end. *)
Fixpoint leading (c : ascii) (s : bytes) : nat :=
  match s with x :: r => if Ascii.eqb x c then S (leading c r) else O | [] => O end.
Definition trailing_backslashes (s : bytes) : nat := leading BSLASH (rev s).

(** Parameter values that can be read back: those with a colon, semicolon or comma must not
    end with an odd number of backslashes, the others must not start with a blank. *)
Definition needs_quotes (v : bytes) : Prop := In ":"%char v \/ In ";"%char v \/ In ","%char v.
Definition value_ok (v : bytes) : Prop :=
  (needs_quotes v -> Nat.even (trailing_backslashes v) = true) /\
  (~ needs_quotes v -> match v with c :: _ => c <> SPC | [] => True end) /\
  ~ In CR v.

(** Parameters as the API builds them: stored under the upper-cased name, at least one value. *)
Definition param_ok (key : bytes) (p : param) : Prop :=
  upper (fst p) = key /\ starts_ok (fst p) /\ ~ In "="%char (fst p) /\ snd p <> [] /\ Forall value_ok (snd p).
Definition params_ok (ps : params) : Prop :=
  NoDup (map fst ps) /\ Forall (fun kl => snd kl <> [] /\ Forall (param_ok (fst kl)) (snd kl)) ps.
Definition name_ok (n : bytes) : Prop :=
  n <> [] /\ starts_ok n /\ ~ In ";"%char n /\ ~ In ":"%char n.

(** vCard group prefixes: nothing, or a token without a dot. *)
Definition group_ok (g : option bytes) (name : bytes) : Prop :=
  match g with
  | None => ~ In "."%char name
  | Some g => g <> [] /\ starts_ok g /\ ~ In "."%char g /\ ~ In ";"%char g /\ ~ In ":"%char g
  end.

(** UTF-8 characters: a lead octet (not 10xxxxxx) and up to three continuation octets. *)
Definition continuation (c : ascii) : Prop := (128 <= nat_of_ascii c < 192)%nat.
Definition utf8_char (s : bytes) : Prop :=
  exists c r, s = c :: r /\ ~ continuation c /\ Forall continuation r /\ (List.length r <= 3)%nat.

(** Physical lines with a line break and a blank between them, and a line break at the end. *)
Fixpoint physical (ls : list bytes) : bytes :=
  match ls with
  | [] => []
  | [x] => x ++ [CR; LF]
  | x :: r => x ++ CR :: LF :: SPC :: physical r
  end.
(** Their lengths: the blank counts. *)
Definition short_lines (ls : list bytes) : Prop :=
  match ls with
  | [] => True
  | x :: r => (List.length x <= 74)%nat /\ Forall (fun y => (List.length (SPC :: y) <= 74)%nat) r
  end.

(** RFC 5545 3.1 unfolding: drop every CRLF that is followed by a blank, with the blank. *)
Fixpoint unfold_text (s : bytes) : bytes :=
  match s with
  | [] => []
  | c :: r =>
    match r with
    | d :: e :: t => if Ascii.eqb c CR && Ascii.eqb d LF && Ascii.eqb e SPC then unfold_text t else c :: unfold_text r
    | _ => c :: unfold_text r
    end
  end.

(** A run of n continuation octets somewhere in s. *)
Definition has_run (n : nat) (s : bytes) : Prop :=
  exists a m b, s = a ++ m ++ b /\ List.length m = n /\ Forall continuation m.

(** A logical line that can be told apart in a file. *)
Definition loose_line (s : bytes) : Prop :=
  match s with c :: _ => is_space c = false | [] => False end /\ ~ In CR s /\ ~ In LF s.

(** The first octet starts a character. *)
Definition starts_char (s : bytes) : Prop := match s with c :: _ => ~ continuation c | [] => False end.
