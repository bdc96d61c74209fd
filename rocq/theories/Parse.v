(** Parse.v - index-free form of Extract.  ParseFacts.v proves that the model of Extract
    computes exactly this, which also shows that it never panics. *)

From Verif Require Import Base BaseFacts Utf8 Str Net Trie Extract Host Walk.
Local Open Scope N_scope.

Definition alpha (b : N) : bool := ((65 <=? b) && (b <=? 90)) || ((97 <=? b) && (b <=? 122)).
Definition scheme_char (b : N) : bool := alpha b || is_digit b || memN b (str "+-.").
Definition is_slash (b : N) : bool := memN b (str "/\").
Definition is_path_char (b : N) : bool := memN b (str "/\?#").
Definition is_bracket (b : N) : bool := memN b (str "[]").

(** Optional scheme name and colon, and the rest. *)
Definition scheme_body (s : bytes) : bytes * bytes :=
  match s with
  | c :: t =>
    if alpha c then
      let '(x, r) := span scheme_char t in
      match r with
      | b :: r' => if b =? 58 then (c :: x ++ [58], r') else (c :: x, r)
      | [] => (c :: x, r)
      end
    else ([], s)
  | [] => ([], s)
  end.
Definition split_scheme (s : bytes) : bytes * bytes :=
  let '(body, r) := scheme_body s in
  let '(sl, rest) := span is_slash r in
  if (2 <=? length sl)%nat then (body ++ sl, rest) else ([], s).

(** Split at the last '@'. *)
Definition last_at (s : bytes) : option (bytes * bytes) :=
  let '(v, u) := span (fun b => negb (b =? 64)) (rev s) in
  match u with [] => None | _ :: u => Some (rev u, rev v) end.
Definition split_user (s : bytes) : option bytes * bytes :=
  let '(pre, q) := span (fun b => negb (is_path_char b || is_bracket b)) s in
  match last_at pre with None => (None, s) | Some (u, v) => (Some u, v ++ q) end.

Definition v6 (s : bytes) : bool := match is_ipv6 s with Ret b => b | _ => false end.
Definition v4 (s : bytes) : bool := match ipv4_host s with Ret b => b | _ => false end.

Inductive authority :=
| AHost (h after : bytes)
| AV6 (inner after : bytes).

Definition split_bracketed (t : bytes) : err + authority :=
  let '(a, q) := span (fun b => negb (is_bracket b)) t in
  match q with
  | [] => inl ErrIncompleteBrackets
  | b :: r =>
    if b =? 91 then inl ErrOpeningBracket
    else
      let '(m, q2) := span (fun b => negb (is_path_char b || (b =? 91))) r in
      if has_prefix q2 [91] then inl ErrOpeningBracket
      else if memN 93 m || negb (v6 a) then inl ErrInvalidIPv6
      else match r with
           | [] => inr (AV6 a r)
           | c :: _ => if is_path_char c || (c =? 58) then inr (AV6 a r) else inl ErrTrailingAfterIPv6
           end
  end.

Definition split_auth (s : bytes) : err + authority :=
  if has_prefix s [91] then split_bracketed (tl s)
  else
    let '(h, q) := span (fun b => negb (is_path_char b || (b =? 58) || is_bracket b)) s in
    if has_prefix q [91] then inl ErrOpeningBracket
    else if has_prefix q [93] then inl ErrClosingBracket
    else inr (AHost h q).

Definition port_ok (p : bytes) : bool :=
  match atoi p with Some v => ((0 <=? v) && (v <=? largest_port_number))%Z | None => false end.

(** Port (empty if there is none) and path; None is an invalid port. *)
Definition split_port (after : bytes) : option (bytes * bytes) :=
  match after with
  | [] => Some ([], [])
  | c :: t =>
    if c =? 58 then
      let '(p, path) := span (fun b => negb (is_path_char b)) t in
      if port_ok p then Some (p, path) else None
    else Some ([], after)
  end.

Definition trim_ws (s : bytes) : bytes :=
  match fast_trim s whitespace_rune_set TrimBoth with Ret m => m | _ => [] end.

Definition user_text (user : option bytes) : bytes := match user with Some u => u | None => [] end.

Definition extract_authority (ext : idna) (t : trie) (ignore puny : bool) (u : result) (s : bytes)
  : result * option err :=
  match split_auth s with
  | inl e => (u, Some e)
  | inr (AV6 a after) =>
    let u := with_registered_domain (with_domain (with_host_type u HIPv6) a) a in
    match split_port after with
    | None => (u, Some ErrInvalidPort)
    | Some (port, path) => (with_path (with_port u port) path, None)
    end
  | inr (AHost h after) =>
    match split_port after with
    | None => (u, Some ErrInvalidPort)
    | Some (port, path) =>
      let u := with_path (with_port u port) path in
      match convert_host ext puny h with
      | inl e => (u, Some e)
      | inr h => host_outcome t u h ignore (v4 h)
      end
    end
  end.

Definition extracted (ext : idna) (t : trie) (p : url_params) : result * option err :=
  let '(scheme, s) := split_scheme (trim_ws (p_url p)) in
  let '(user, s) := split_user s in
  extract_authority ext t (p_ignore_sub_domains p) (p_to_punycode p)
    (with_user_info (with_scheme empty_result scheme) (user_text user)) s.
