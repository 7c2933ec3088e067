(** * Specification of the caching verdicts (C20, C21, C22). *)
From Coq Require Import QArith Qround.
From Verif Require Import PyStr NoteTable Note PyLib Utils Types PropBody StatusSpec.
Open Scope N_scope.

(** ** Vocabulary *)
(** The parsed Cache-Control: (directive, value) pairs in order. *)
Definition directives (m : mstate) : list (str * pyval) :=
  match dget (u "cache-control") (s_parsed (m_headers m)) with
  | Some (VList l) | Some (VTuple l) => flat_map (fun p => match p with VTuple [VStr d; v] => [(d, v)] | _ => [] end) l
  | _ => []
  end.
Definition says (m : mstate) (d : string) : Prop := exists v, In (u d, v) (directives m).
(** A Python integer ([True] and [False] count as 1 and 0). *)
Definition whole (v : pyval) : option Z := match v with VInt z => Some z | VBool b => Some (if b then 1 else 0)%Z | _ => None end.
(** The number a directive gives: the last one counts. *)
Definition setting (m : mstate) (d : string) : option Z :=
  match find (fun p => str_eqb (fst p) (u d)) (rev (directives m)) with Some p => whole (snd p) | None => None end.
(** The number a field gives. *)
Definition amount (m : mstate) (k : string) : option Z :=
  match dget (u k) (s_parsed (m_headers m)) with Some v => whole v | None => None end.
Definition or_zero (o : option Z) : Z := match o with Some z => z | None => 0%Z end.
(** A clock reading; time 0 counts as not known. *)
Definition clock (t : option Q) : option Q := match t with Some q => if Qeq_bool q 0 then None else Some q | None => None end.
Definition seconds (q : Q) : Z := Z.quot (Qnum q) (Zpos (Qden q)).
Definition request_clock (rel : option mstate) : option Q := match rel with Some r => clock (m_start r) | None => None end.

(** ** Storing *)
Definition varies_on_all (m : mstate) : Prop := exists v, received m "vary" v /\ py_in (u "*") v = Ok true.
Definition other_method (rel : option mstate) : Prop :=
  exists r s, rel = Some r /\ m_method r = Some s /\ s <> [] /\ s <> u "GET" /\ s <> u "HEAD".
Definition authenticated (rel : option mstate) : Prop := exists r, rel = Some r /\ line_of r "authorization".
Definition shareable (m : mstate) : Prop := says m "public" \/ says m "must-revalidate" \/ says m "s-maxage".
Definition heuristic (m : mstate) : Prop := status_among m [200; 203; 206; 300; 301; 410]%Z.
(** A non-zero Expires. *)
Definition expiring (m : mstate) : Prop := exists v, received m "expires" v /\ truthy v = true.
Definition cacheable (m : mstate) : Prop := says m "public" \/ says m "private" \/ expiring m \/ says m "max-age" \/ heuristic m.
(** Nothing forbids every cache to store the response ... *)
Definition permitted (m : mstate) (rel : option mstate) : Prop := ~ varies_on_all m /\ ~ other_method rel /\ ~ says m "no-store".
(** ... and there is a reason to. *)
Definition stored (m : mstate) (rel : option mstate) : Prop :=
  permitted m rel /\ (says m "private" \/ authenticated rel \/ cacheable m \/ says m "s-maxage").
Definition usable (m : mstate) (rel : option mstate) : Prop := stored m rel /\ ~ says m "no-cache".

(** ** Age and freshness *)
(** How old the response seems, going by its Date. *)
Definition apparent_age (m : mstate) : Z :=
  match clock (m_start m), amount m "date" with
  | Some now, Some d => if (0 <? d)%Z then Z.max 0 (seconds now - d) else 0%Z
  | _, _ => 0%Z
  end.
(** How old it is going by its Age, plus the time the request took. *)
Definition corrected_age (m : mstate) (rel : option mstate) : Q :=
  let age := inject_Z (or_zero (amount m "age")) in
  match request_clock rel, clock (m_start m) with
  | Some asked, Some answered => age + (answered - asked)
  | _, _ => age
  end%Q.
Definition age_of (m : mstate) (rel : option mstate) : Q :=
  if Qle_bool (corrected_age m rel) (inject_Z (apparent_age m)) then inject_Z (apparent_age m) else corrected_age m rel.
(** Expires minus Date; a missing or zero Date is replaced by the clock, an
    invalid Expires by 0. *)
Definition expires_lifetime (m : mstate) (now : Q) : Z :=
  (or_zero (amount m "expires") - match amount m "date" with Some 0%Z | None => seconds now | Some d => d end)%Z.
(** A header line named [k] was received. *)
Definition sent (m : mstate) (k : string) : bool := existsb (fun nv : str * str => str_eqb (lower (fst nv)) (u k)) (s_text (m_headers m)).
Lemma sent_line m k : sent m k = true <-> line_of m k.
Proof.
  unfold sent, line_of. rewrite existsb_exists. split.
  - intros ((n & v) & H & E). apply str_eqb_eq in E. eauto.
  - intros (n & v & H & E). exists (n, v). split; [exact H|]. apply str_eqb_eq, E.
Qed.
(** The explicit lifetime for private and for shared caches, if there is one. *)
Definition private_life (m : mstate) : option Z :=
  match setting m "max-age", clock (m_start m) with
  | Some z, _ => Some z
  | None, Some now => if sent m "expires" then Some (expires_lifetime m now) else None
  | None, None => None
  end.
Definition shared_life (m : mstate) : option Z := match setting m "s-maxage" with Some z => Some z | None => private_life m end.
Definition explicit (m : mstate) : Prop := shared_life m <> None.
Definition fresh_private (m : mstate) (rel : option mstate) : Prop := (age_of m rel < inject_Z (or_zero (private_life m)))%Q.
Definition fresh_shared (m : mstate) (rel : option mstate) : Prop := (age_of m rel < inject_Z (or_zero (shared_life m)))%Q.
Definition same_lives (m : mstate) : Prop := or_zero (shared_life m) = or_zero (private_life m).
(** A value other than None was recorded for the field. *)
Definition valued (m : mstate) (k : string) : Prop := exists v, received m k v /\ v <> VNone.

(** ** When each class of note is due *)
Definition cache_rule (c : nid) (m : mstate) (rel : option mstate) : Prop :=
  match c with
  | DATE_CLOCKLESS => ~ varies_on_all m /\ ~ line_of m "date"
  | DATE_CLOCKLESS_BAD_HDR => ~ varies_on_all m /\ ~ line_of m "date" /\ (line_of m "expires" \/ line_of m "last-modified")
  | STORE_NO_STORE => ~ varies_on_all m /\ ~ other_method rel /\ says m "no-store"
  | STORE_PRIVATE_CC => permitted m rel /\ says m "private"
  | STORE_PRIVATE_PUBLIC_CONFLICT => permitted m rel /\ says m "private" /\ says m "public"
  | STORE_PUBLIC_AUTH => permitted m rel /\ ~ says m "private" /\ authenticated rel /\ shareable m
  | STORE_PRIVATE_AUTH => permitted m rel /\ ~ says m "private" /\ authenticated rel /\ ~ shareable m
  | STORE_STORABLE => permitted m rel /\ ~ says m "private" /\ ~ authenticated rel /\ cacheable m
  | STORE_STORABLE_SHARED_ONLY => permitted m rel /\ ~ says m "private" /\ ~ authenticated rel /\ ~ cacheable m /\ says m "s-maxage"
  | STORE_UNSTORABLE => permitted m rel /\ ~ says m "private" /\ ~ authenticated rel /\ ~ cacheable m /\ ~ says m "s-maxage"
  | CURRENT_AGE => stored m rel /\ (1 <= age_of m rel)%Q
  | FRESHNESS_NO_CACHE_NO_VALIDATOR => stored m rel /\ says m "no-cache" /\ ~ valued m "last-modified" /\ ~ valued m "etag"
  | FRESHNESS_NO_CACHE => stored m rel /\ says m "no-cache" /\ (valued m "last-modified" \/ valued m "etag")
  | FRESHNESS_SHARED_PRIVATE => usable m rel /\ explicit m /\ ~ same_lives m
  | FRESHNESS_FRESH => usable m rel /\ explicit m /\ same_lives m /\ fresh_private m rel
  | FRESHNESS_STALE_ALREADY => usable m rel /\ explicit m /\ same_lives m /\ ~ fresh_private m rel
  | FRESHNESS_HEURISTIC => usable m rel /\ ~ explicit m /\ heuristic m
  | FRESHNESS_NONE => usable m rel /\ ~ explicit m /\ ~ heuristic m
  | CC_AND_EXPIRES => usable m rel /\ says m "max-age" /\ line_of m "expires"
  | STORE_PUBLIC_UNNECESSARY => usable m rel /\ says m "public" /\ (explicit m \/ heuristic m)
  | STALE_WHILE_REVALIDATE => usable m rel /\ says m "stale-while-revalidate"
  | STALE_IF_ERROR => usable m rel /\ says m "stale-if-error"
  | FRESH_MUST_REVALIDATE => usable m rel /\ ~ says m "stale-if-error" /\ says m "must-revalidate" /\ fresh_private m rel
  | STALE_MUST_REVALIDATE => usable m rel /\ ~ says m "stale-if-error" /\ says m "must-revalidate" /\ ~ fresh_private m rel /\ explicit m
  | FRESH_PROXY_REVALIDATE => usable m rel /\ ~ says m "stale-if-error" /\ ~ says m "must-revalidate"
      /\ (says m "proxy-revalidate" \/ says m "s-maxage") /\ fresh_shared m rel
  | STALE_PROXY_REVALIDATE => usable m rel /\ ~ says m "stale-if-error" /\ ~ says m "must-revalidate"
      /\ (says m "proxy-revalidate" \/ says m "s-maxage") /\ ~ fresh_shared m rel /\ explicit m
  | STALE_SERVABLE => usable m rel /\ ~ says m "stale-if-error" /\ ~ says m "must-revalidate" /\ ~ says m "proxy-revalidate" /\ ~ says m "s-maxage"
  | _ => False
  end.
