(** The requests written on the network: http_request, src/httpreq.cpp:11-34, and the library ESP8266HTTPClient it uses. *)
From Coq Require Import ZArith List Bool.
From Verif Require Import Base Tic.
Import ListNotations.
Open Scope Z_scope.

(** A header line: name, value. *)
Definition header := (list Z * list Z)%type.
Definition eol : list Z := [13; 10].
Definition header_line (h : header) : list Z := fst h ++ str ": " ++ snd h ++ eol.

(** HTTPClient::sendHeader (library, not in the repository): the host, followed by the port unless it is 80 or 443. *)
Definition host_text (r : request) : list Z :=
  r_host r ++ (if (r_port r =? 80) || (r_port r =? 443) then [] else str ":" ++ dec (r_port r)).

(** src/httpreq.cpp:23-31: POST with a content type if there are data, GET otherwise. HTTPClient::POST adds the length unless
    the data are empty. *)
Definition method_of (r : request) : list Z := match r_data r with Some _ => str "POST" | None => str "GET" end.
Definition data_headers (r : request) : list header :=
  match r_data r with
  | Some d => (str "Content-Type", str "application/json") ::
      (match d with [] => [] | _ => [(str "Content-Length", dec (Z.of_nat (length d)))] end)
  | None => []
  end.
Definition data_of (r : request) : list Z := match r_data r with Some d => d | None => [] end.

(** The bytes written on the connection, src/httpreq.cpp:19-31 and HTTPClient::sendHeader. [own]: the headers that the library
    adds by itself (User-Agent, Accept-Encoding, Connection), left open. The client is a WiFiClient (src/httpreq.cpp:13), which
    writes the bytes as they are; the last argument of begin (port 443) only changes a name kept by the library. Simplified:
    the connection succeeds and every byte is written. *)
Definition sent_bytes (own : list header) (r : request) : list Z :=
  method_of r ++ str " " ++ (match r_url r with [] => str "/" | u => u end) ++ str " HTTP/1.1" ++ eol ++
  concat (map header_line ((str "Host", host_text r) :: own ++ data_headers r)) ++ eol ++ data_of r.
