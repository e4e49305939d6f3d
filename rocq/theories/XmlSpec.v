(** What the theorems about the XML form are stated with: reading XML text, and the jCal form (RFC 7265) of an xCal element (RFC 6321). *)
From Verif Require Import JsonModel.
From Verif Require Export JsonSpec.

Notation "'opt' x <- a ; b" := (match a with Some x => b | None => None end) (at level 200, x name, a at level 100, b at level 200).
Definition all_some {A B} (f : A -> option B) : list A -> option (list B) :=
  fix all l := match l with [] => Some [] | x :: r => opt y <- f x; opt t <- all r; Some (y :: t) end.

(** ** XML text *)

(** An element as it is read: name, character data before the first child, children, character data after the element. *)
Inductive node : Set := Node (name text : bytes) (kids : list node) (tail : bytes).
Definition node_name (x : node) : bytes := let '(Node n _ _ _) := x in n.
Definition node_tail (x : node) : bytes := let '(Node _ _ _ t) := x in t.

(** Characters that XML 1.0 allows, as far as they are ASCII. *)
Definition legal (c : ascii) : bool :=
  let n := nat_of_ascii c in ((32 <=? n)%nat && (n <? 128)%nat) || (n =? 9)%nat || (n =? 10)%nat || (n =? 13)%nat.
Definition blank (s : bytes) : bool := forallb (fun c => existsb (Ascii.eqb c) ["009"; "010"; "013"; " "]%char) s.
(** Names without a prefix. *)
Definition letter (c : ascii) : bool :=
  let n := nat_of_ascii c in ((65 <=? n)%nat && (n <=? 90)%nat) || ((97 <=? n)%nat && (n <=? 122)%nat) || Ascii.eqb c "_".
Definition name_char (c : ascii) : bool := letter c || is_digit c || Ascii.eqb c "-" || Ascii.eqb c ".".
Definition xname (s : bytes) : bool := match s with [] => false | c :: _ => letter c && forallb name_char s end.
Fixpoint word (s : bytes) : bytes * bytes :=
  match s with
  | [] => ([], [])
  | c :: r => if name_char c then (c :: fst (word r), snd (word r)) else ([], s)
  end.
(** What follows this text. *)
Fixpoint after (p s : bytes) : option bytes :=
  match p, s with
  | [], _ => Some s
  | a :: p, b :: s => if Ascii.eqb a b then after p s else None
  | _ :: _, [] => None
  end.
(** Character data up to the next tag: references to & < and > are resolved, an end of line is LF. *)
Fixpoint chars (n : nat) (s : bytes) : option (bytes * bytes) :=
  match n with
  | O => None
  | S n =>
    let put c s := opt r <- chars n s; Some (c :: fst r, snd r) in
    match s with
    | [] => Some ([], [])
    | c :: r =>
      if Ascii.eqb c "<" then Some ([], s)
      else if Ascii.eqb c "&" then
        match after (lit "amp;") r, after (lit "lt;") r, after (lit "gt;") r with
        | Some t, _, _ => put "&"%char t
        | _, Some t, _ => put "<"%char t
        | _, _, Some t => put ">"%char t
        | _, _, _ => None
        end
      else if Ascii.eqb c CR then put LF (match after [LF] r with Some t => t | None => r end)
      else if legal c then put c r else None
    end
  end.
Definition data (s : bytes) : option (bytes * bytes) := chars (S (List.length s)) s.
(** An element of the namespace ns0 with the character data after it; atts is what follows its name.  n bounds the depth. *)
Fixpoint read_element (n : nat) (atts s : bytes) : option (node * bytes) :=
  match n with
  | O => None
  | S n =>
    opt s <- after (lit "<ns0:") s;
    let name := fst (word s) in
    if xname name then
      opt s <- after atts (snd (word s));
      opt x <- match after (lit " />") s with
               | Some s => Some (([], []), s)
               | None =>
                 opt s <- after (lit ">") s;
                 opt t <- data s;
                 opt l <- read_elements n (snd t);
                 opt s <- after (lit "</ns0:" ++ name ++ lit ">") (snd l);
                 Some ((fst t, fst l), s)
               end;
      opt t <- data (snd x);
      Some (Node name (fst (fst x)) (snd (fst x)) (fst t), snd t)
    else None
  end
with read_elements (n : nat) (s : bytes) : option (list node * bytes) :=
  match n with
  | O => None
  | S n =>
    match after (lit "</") s with
    | Some _ => Some ([], s)
    | None => opt x <- read_element n [] s; opt l <- read_elements n (snd x); Some (fst x :: fst l, snd l)
    end
  end.
(** A document: the declaration and one element, which says that ns0 is the namespace of iCalendar. *)
Definition read_document (s : bytes) : option node :=
  let q s := [DQUOTE] ++ s ++ [DQUOTE] in
  opt s <- after (lit "<?xml version=" ++ q (lit "1.0") ++ lit " encoding=" ++ q (lit "utf-8") ++ lit "?>" ++ [LF]) s;
  match read_element (S (List.length s)) (lit " xmlns:ns0=" ++ q (lit "urn:ietf:params:xml:ns:icalendar-2.0")) s with
  | Some (x, []) => Some x
  | _ => None
  end.

(** ** From xCal to jCal *)

(** The children of an element that has no text of its own, and the text of one without children. *)
Definition children (x : node) : option (list node) :=
  let '(Node _ t l _) := x in if blank t && forallb (fun k => blank (node_tail k)) l then Some l else None.
Definition text (x : node) : option bytes := let '(Node _ t l _) := x in match l with [] => Some t | _ => None end.
Definition number (x : node) : option Z := opt s <- text x; match pyint s with Ok n => Some n | Raise _ => None end.
Definition named (name : bytes) (x : node) : bool := beq (node_name x) name.

(** The parts of a recurrence rule and what they hold. *)
Inductive holds : Set := OneText | OneNumber | OneDate | Numbers | Texts.
Definition rule_parts : list (bytes * holds) :=
  [(lit "freq", OneText); (lit "count", OneNumber); (lit "until", OneDate); (lit "interval", OneNumber); (lit "bysecond", Numbers);
   (lit "byminute", Numbers); (lit "byhour", Numbers); (lit "byday", Texts); (lit "bymonthday", Numbers); (lit "byyearday", Numbers);
   (lit "byweekno", Numbers); (lit "bymonth", Numbers); (lit "bysetpos", Numbers); (lit "wkst", OneText)].
Definition rule_part (l : list node) (part : bytes * holds) : option (list (bytes * json)) :=
  let (name, h) := part in
  match filter (named name) l with
  | [] => Some []
  | x :: r =>
    opt j <- match h, r with
             | OneText, [] => opt s <- text x; Some (JText s)
             | OneNumber, [] => opt n <- number x; Some (JNum n)
             | OneDate, [] =>
               opt k <- children x;
               match k with [d] => if named (lit "date") d || named (lit "date-time") d then opt s <- text d; Some (JText s) else None | _ => None end
             | Numbers, _ => opt v <- all_some number (x :: r); Some (JArr (map JNum v))
             | Texts, _ => opt v <- all_some text (x :: r); Some (JArr (map JText v))
             | _, _ => None
             end;
    Some [(name, j)]
  end.
Definition rule_object (l : list node) : option json :=
  if forallb (fun x => existsb (fun p => named (fst p) x) rule_parts) l then
    opt m <- all_some (rule_part l) rule_parts; Some (JObj (List.concat m))
  else None.
(** A value.  (Of the types that are left out the library writes no value that could be read.) *)
Definition value_of (fl : floats) (x : node) : option json :=
  if named (lit "integer") x then opt n <- number x; Some (JNum n)
  else if named (lit "float") x then opt s <- text x; opt f <- fl_read fl s; Some (JFloat f)
  else if named (lit "recur") x then opt l <- children x; rule_object l
  else if existsb (fun n => named n x) [lit "binary"; lit "cal-address"; lit "date"; lit "date-time"; lit "text"; lit "unknown"; lit "uri"; lit "utc-offset"]
       then opt s <- text x; Some (JText s)
  else None.
Definition parameter_of (x : node) : option (bytes * json) :=
  opt l <- children x;
  if forallb (named (lit "text")) l then
    opt v <- all_some text l; Some (node_name x, match v with [s] => JText s | _ => JArr (map JText v) end)
  else None.
Definition property_of (fl : floats) (x : node) : option json :=
  opt l <- children x;
  opt both <- match l with
              | p :: r => if named (lit "parameters") p then opt k <- children p; opt m <- all_some parameter_of k; Some (m, r) else Some ([], l)
              | [] => Some ([], [])
              end;
  let (m, values) := both in
  match values with
  | [] => Some (JArr [JText (node_name x); JObj m])
  | v :: _ =>
    if forallb (named (node_name v)) values then
      opt js <- all_some (value_of fl) values; Some (JArr (JText (node_name x) :: JObj m :: JText (node_name v) :: js))
    else None
  end.
Fixpoint component_of (fl : floats) (x : node) : option json :=
  let '(Node name t kids _) := x in
  match kids with
  | p :: r =>
    if blank t && named (lit "properties") p && blank (node_tail p) then
      opt pk <- children p;
      opt pl <- all_some (property_of fl) pk;
      opt cl <- match r with
                | [] => Some []
                | [Node n t' l u] =>
                  if beq n (lit "components") && blank t' && blank u && forallb (fun k => blank (node_tail k)) l then all_some (component_of fl) l else None
                | _ => None
                end;
      Some (JArr [JText name; JArr pl; JArr cl])
    else None
  | [] => None
  end.
(** The text of an xCal document as jCal. *)
Definition jcal (fl : floats) (s : bytes) : option json :=
  opt x <- read_document s;
  if named (lit "icalendar") x then
    opt l <- children x;
    match l with [c] => component_of fl c | _ => None end
  else None.

(** ** What can be written *)

(** Text that XML can hold and that is ASCII; CR would be read as LF. *)
Definition xml_text_ok (s : bytes) : Prop := Forall (fun c => legal c = true /\ c <> CR) s.
Definition item_xml_ok (fl : floats) (i : item) : Prop :=
  match i with
  | VText s | VPlain _ (Some s) | VUri (Some s) => xml_text_ok s
  | VFloat x => fl_read fl (fl_str fl x) = Some x /\ xml_text_ok (fl_str fl x)
  | VOffset n => n mod 60 = 0
  | VInteger _ | VDateTime _ => True
  | VRecur r => rule_ok r
  | _ => False
  end.
Definition value_xml_ok (fl : floats) (v : value) : Prop :=
  match v with
  | Single i => item_xml_ok fl i
  | Multi t l => l <> [] /\ Forall (fun i => item_type i = t /\ item_xml_ok fl i) l
  end.
Definition name_ok (s : bytes) : Prop := xname (lower s) = true.
Definition prop_xml_ok (fl : floats) (p : prop) : Prop :=
  prop_json_ok p /\ name_ok (pName p) /\
  Forall (fun kl => Forall (fun q => name_ok (fst q) /\ Forall xml_text_ok (snd q)) (snd kl)) (pParams p) /\
  match pValue p with Some v => value_xml_ok fl v | None => True end.
Definition props_xml_ok (fl : floats) (ps : props) : Prop := NoDup (map fst ps) /\ Forall (fun kl => Forall (prop_xml_ok fl) (snd kl)) ps.
Inductive tree_xml_ok (fl : floats) : comp -> Prop :=
| tree_xml_intro : forall k s ps subs,
    name_ok (getType k) -> props_xml_ok fl ps -> Forall (tree_xml_ok fl) subs -> tree_xml_ok fl (Comp k s ps subs).
