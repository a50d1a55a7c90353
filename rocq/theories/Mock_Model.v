(** * The scripted HTTP transport *)
From Verif Require Import Base Codec_Model Transport_Model.
Open Scope Z_scope.

(** transport/https/mock_http_transport.go.  A request is a value of [R]; its body, or
    nil, is [body_of].  Simplifications: that an unexpected request's body has been read is
    not recorded, its error is the request with that body (the text is made from them), and
    after a panic there is no state. *)
(** Reading through a nil pointer, or behind the end of a slice, panics. *)
Definition must {A} (o : option A) : outcome A := match o with Some a => Ok a | None => Panic end.
Definition zlen {A} (l : list A) : Z := Z.of_nat (List.length l).

Section Mock.
  Context {R : Type}.
  Variable body_of : R -> option bytes.

  (** mock_http_transport.go:41-49 and 65-73: a response is an object whose body can be
      read once; [rs_body] is which one, [rs_length] the field ContentLength.  The other
      fields are constants (200 OK, HTTP/1.0). *)
  Record response := mkResponse { rs_body : nat; rs_length : Z }.
  (** mock_http_transport.go:13-18, with what is left to read of each body; [None]: nil *)
  Record mock := mkMock {
    mk_requests : option (list (option R)); mk_responses : option (list (option response));
    mk_errors : option (list (option (R * bytes))); mk_count : nat; mk_bodies : list bytes }.
  Definition new_mock : mock := mkMock None None None 0 [].
  Definition elems {X} (o : option (list X)) : list X := match o with Some l => l | None => [] end.

  (** mock_http_transport.go:127-138 init *)
  Definition init (m : mock) : mock :=
    mkMock (Some (elems (mk_requests m))) (Some (elems (mk_responses m))) (Some (elems (mk_errors m))) 0 (mk_bodies m).
  (** mock_http_transport.go:140-159 checkAndAdaptBoundaries *)
  Definition adapt (r : R) (m : mock) : outcome mock :=
    let n := mk_count m in
    let requests := match mk_requests m with None => repeat None n | Some l => l end in
    let responses :=
      if (List.length (elems (mk_responses m)) <=? n)%nat
      then match mk_responses m with None => Some (repeat None n) | Some l => Some (l ++ [None]) end
      else mk_responses m in
    do errors <- (if (List.length (elems (mk_errors m)) <=? n)%nat
                  then match mk_errors m with
                       | None => Ok (Some (repeat None n))
                       | Some l => do b <- must (body_of r); Ok (Some (l ++ [Some (r, b)]))
                       end
                  else Ok (mk_errors m));
    Ok (mkMock (Some requests) responses errors n (mk_bodies m)).

  Inductive op :=
  | Send (r : R) | SetPayload (p : bytes) | SetPayloads (ps : list bytes) | CallCount
  | Request (i : Z) | Requests | ErrorAt (i : Z) | Errors | Reset
  | ReadBody (r : response).
  Inductive answer :=
  | Response (r : option response) (e : option (R * bytes)) | Index (i : Z) | Done | Count (n : Z)
  | TheRequest (r : option R) | TheRequests (l : list (option R))
  | TheError (e : option (R * bytes)) | TheErrors (l : list (option (R * bytes))) | Body (b : bytes).

  (** mock_http_transport.go:25-31 RoundTrip *)
  Definition send (r : R) (m : mock) : outcome (mock * answer) :=
    do m <- adapt r m;
    do resp <- must (nth_error (elems (mk_responses m)) (mk_count m));
    do err <- must (nth_error (elems (mk_errors m)) (mk_count m));
    Ok (mkMock (Some (elems (mk_requests m) ++ [Some r])) (mk_responses m) (mk_errors m) (S (mk_count m)) (mk_bodies m),
        Response resp err).
  (** mock_http_transport.go:37-52 SetResponsePayload *)
  Definition set_payload (p : bytes) (m : mock) : mock * answer :=
    let m := init m in
    let responses := elems (mk_responses m) ++ [Some (mkResponse (List.length (mk_bodies m)) (zlen p))] in
    (mkMock (mk_requests m) (Some responses) (Some (elems (mk_errors m) ++ [None])) (mk_count m) (mk_bodies m ++ [b64_encode p]),
     Index (zlen responses - 1)).
  (** mock_http_transport.go:64-74: the loop of SetResponsePayloads *)
  Fixpoint responses_for (n : nat) (ps : list bytes) : list (option response) :=
    match ps with [] => [] | p :: r => Some (mkResponse n (zlen p)) :: responses_for (S n) r end.
  (** mock_http_transport.go:58-75 SetResponsePayloads *)
  Definition set_payloads (ps : list bytes) (m : mock) : mock :=
    let m := init m in
    mkMock (mk_requests m) (Some (responses_for (List.length (mk_bodies m)) ps)) (Some (repeat None (List.length ps)))
           (mk_count m) (mk_bodies m ++ map b64_encode ps).
  (** mock_http_transport.go:84-89 Request and 102-107 Error *)
  Definition at_index {X} (l : list (option X)) (i : Z) : outcome (option X) :=
    if zlen l <? i then Ok None
    else if i <? 0 then Panic
    else match nth_error l (Z.to_nat i) with Some x => Ok x | None => Panic end.
  (** strings.Reader read to its end *)
  Fixpoint emptied (n : nat) (l : list bytes) : list bytes :=
    match n, l with
    | _, [] => []
    | O, _ :: r => [] :: r
    | S n, x :: r => x :: emptied n r
    end.
  Definition left_of (m : mock) (r : response) : bytes := nth (rs_body r) (mk_bodies m) [].

  (** mock_http_transport.go:78-125 for the methods that are not above *)
  Definition step (o : op) (m : mock) : outcome (mock * answer) :=
    match o with
    | Send r => send r m
    | SetPayload p => Ok (set_payload p m)
    | SetPayloads ps => Ok (set_payloads ps m, Done)
    | CallCount => Ok (m, Count (Z.of_nat (mk_count m)))
    | Request i => do x <- at_index (elems (mk_requests m)) i; Ok (m, TheRequest x)
    | Requests => Ok (m, TheRequests (elems (mk_requests m)))
    | ErrorAt i => do x <- at_index (elems (mk_errors m)) i; Ok (m, TheError x)
    | Errors => Ok (m, TheErrors (elems (mk_errors m)))
    | Reset => Ok (mkMock (Some []) (Some []) (Some []) 0 (mk_bodies m), Done)
    | ReadBody r => Ok (mkMock (mk_requests m) (mk_responses m) (mk_errors m) (mk_count m) (emptied (rs_body r) (mk_bodies m)),
                        Body (left_of m r))
    end.
  Fixpoint play (h : list op) (m : mock) : outcome (mock * list answer) :=
    match h with
    | [] => Ok (m, [])
    | o :: h => do x <- step o m; do y <- play h (fst x); Ok (fst y, snd x :: snd y)
    end.

  (** The transport as a server for the HTTPS transport; [post] makes the request of a URL
      and a body. *)
  Definition mock_server (post : bytes -> bytes -> R) (m : mock) : server :=
    fun url body =>
      match send (post url body) m with
      | Ok (m', Response (Some r) None) => Ok (200, (left_of m' r, true))
      | Panic => Panic
      | _ => Err
      end.
End Mock.
