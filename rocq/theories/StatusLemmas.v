(** * status.py as a table. *)
From Verif Require Import PyStr Regex Grammar Note PyLib Utils FieldAttrs Types Fields1 Framework Checks Message Session
  EvLogic NoteLemmas TestEnv ContentLemmas LexLemmas FrameLemmas BodyLemmas PassFrame PassSec PassProc PassMsg PassRun
  SessionLemmas EndLemmas PropBody PropTop StatusSpec.
Open Scope N_scope.

(** ** The code as a table of rows (code, class, condition) *)
Definition rows (b100 b101 b201 nl nr ncr nd b304 hit nneg npre noexp e100 : bool) : list (Z * nid * bool) :=
  [(100, UNEXPECTED_CONTINUE, b100); (101, UPGRADE_NOT_REQUESTED, b101);
   (201, CREATED_SAFE_METHOD, b201); (201, CREATED_WITHOUT_LOCATION, nl);
   (206, PARTIAL_NOT_REQUESTED, nr); (206, PARTIAL_WITHOUT_RANGE, ncr);
   (301, REDIRECT_WITHOUT_LOCATION, nl); (302, REDIRECT_WITHOUT_LOCATION, nl); (303, REDIRECT_WITHOUT_LOCATION, nl);
   (307, REDIRECT_WITHOUT_LOCATION, nl); (308, REDIRECT_WITHOUT_LOCATION, nl);
   (304, NO_DATE_304, nd); (304, HEADER_SHOULD_NOT_BE_IN_304, b304);
   (405, STATUS_405_METHOD_IN_ALLOW, hit); (405, STATUS_METHOD_NOT_ALLOWED, negb hit);
   (406, STATUS_406_WITHOUT_NEGOTIATION, nneg); (406, STATUS_NOT_ACCEPTABLE, negb nneg);
   (412, STATUS_412_WITHOUT_PRECONDITION, npre); (412, STATUS_PRECONDITION_FAILED, negb npre);
   (416, STATUS_416_WITHOUT_RANGE, nr);
   (417, STATUS_417_WITHOUT_EXPECT, noexp); (417, STATUS_417_WITH_100_CONTINUE, negb noexp && e100);
   (417, STATUS_EXPECTATION_FAILED, negb noexp && negb e100)]%Z
  ++ map (fun zc => (fst zc, snd zc, true)) plain.
Definition due (t : list (Z * nid * bool)) (z : Z) : list nid :=
  flat_map (fun r : Z * nid * bool => if (fst (fst r) =? z)%Z && snd r then [snd (fst r)] else []) t.
Definition ev_classes (l : list ev) : list nid := flat_map (fun e => match e with EMsg _ c _ => [c] | _ => [] end) l.

Definition reqb (rel : option mstate) (f : mstate -> bool) : bool := match rel with Some r => f r | None => false end.
Definition lacksb (rel : option mstate) (k : string) : bool := reqb rel (fun r => negb (nonempty (get_header r k))).
Definition hitb (m : mstate) (rel : option mstate) : res bool :=
  match request_method rel, m_get m "allow" with
  | Some (c :: s), Some a => py_in (c :: s) a
  | _, _ => Ok false
  end.
Definition has_100 (r : mstate) : bool := str_in (u "100-continue") (get_header r "expect").
Definition the_rows (m : mstate) (rel : option mstate) (hit : bool) :=
  rows (reqb rel (fun r => negb (has_100 r))) (lacksb rel "upgrade")
       (reqb rel (fun r => match m_method r with Some s => str_in s safe_methods | None => false end))
       (negb (m_has m "location")) (lacksb rel "range") (negb (m_has m "content-range")) (negb (m_has m "date"))
       (nonempty (filter (m_has m) ["content-type"; "content-encoding"; "content-language"]%string)) hit
       (reqb rel (fun r => negb (existsb (fun h => nonempty (get_header r h)) ["accept"; "accept-charset"; "accept-encoding"; "accept-language"]%string)))
       (reqb rel (fun r => negb (existsb (fun h => nonempty (get_header r h))
                                   ["if-match"; "if-none-match"; "if-modified-since"; "if-unmodified-since"; "if-range"]%string)))
       (lacksb rel "expect") (reqb rel has_100).
Definition is_supported (z : Z) : bool := existsb (Z.eqb z) supported.
Lemma check_status_rows m rel l : check_status m rel = (l, Ok tt) ->
  ev_classes l = match m_status m with
                 | Some z => if is_supported z then due (the_rows m rel (match hitb m rel with Ok b => b | Err _ => false end)) z else [STATUS_NONSTANDARD]
                 | None => [STATUS_NONSTANDARD]
                 end.
Proof.
  unfold check_status. cbv zeta. destruct (m_status m) as [z|]; [|intros H; injection H as <-; reflexivity].
  destruct (is_supported z) eqn:Es.
  - unfold is_supported in Es. apply existsb_exists in Es as (z' & Hz & E). apply Z.eqb_eq in E. subst z'.
    unfold the_rows, lacksb, reqb, has_100. fold (request_method rel). fold (hitb m rel).
    set (nl := m_has m "location"). set (ncr := m_has m "content-range"). set (nd := m_has m "date").
    set (bad := filter (m_has m) _). set (hit := hitb m rel).
    intros H. clearbody nl ncr nd bad hit. set (tgt := due _ _).
    repeat (destruct Hz as [<-|Hz]; [
      unfold when in H; cbv iota beta in H; subst tgt; unfold rows, due, plain;
      cbn [map app flat_map fst snd Z.eqb Pos.eqb andb];
      repeat match type of H with
      | context [match rel with Some _ => _ | None => _ end] => destruct rel; cbv iota beta in H
      | context [match m_method ?r with Some _ => _ | None => _ end] => destruct (m_method r); cbv iota beta in H
      | context [lift hit] => destruct hit as [[|]|]; cbv iota beta delta [lift bind fst snd] in H
      | context [if ?b then _ else _] => destruct b; cbv iota beta in H
      end; try discriminate H; injection H as <-; cbn [negb andb app]; reflexivity|]).
    destruct Hz.
  - intros H. destruct z as [|p|p]; [injection H as <-; reflexivity| |injection H as <-; reflexivity].
    repeat (destruct p as [p|p|]; cbv iota in H; match type of H with
      | match _ with xI _ => _ | xO _ => _ | xH => _ end = _ => idtac
      | _ => first [injection H as <-; reflexivity|discriminate Es]
      end).
Qed.

