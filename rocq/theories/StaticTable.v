(** Generated by gen/gen_tables.py from lib/hpack/header_static_table.h:9-70
    (STATIC_TABLE). *)
From Verif Require Import Base.

(** STATIC_TABLE, header_static_table.h:9-70. *)
Definition STATIC_TABLE : list header := [
  Hdr (str ":authority") (str "");
  Hdr (str ":method") (str "GET");
  Hdr (str ":method") (str "POST");
  Hdr (str ":path") (str "/");
  Hdr (str ":path") (str "/index.html");
  Hdr (str ":scheme") (str "http");
  Hdr (str ":scheme") (str "https");
  Hdr (str ":status") (str "200");
  Hdr (str ":status") (str "204");
  Hdr (str ":status") (str "206");
  Hdr (str ":status") (str "304");
  Hdr (str ":status") (str "400");
  Hdr (str ":status") (str "404");
  Hdr (str ":status") (str "500");
  Hdr (str "accept-charset") (str "");
  Hdr (str "accept-encoding") (str "gzip, deflate");
  Hdr (str "accept-language") (str "");
  Hdr (str "accept-ranges") (str "");
  Hdr (str "accept") (str "");
  Hdr (str "access-control-allow-origin") (str "");
  Hdr (str "age") (str "");
  Hdr (str "allow") (str "");
  Hdr (str "authorization") (str "");
  Hdr (str "cache-control") (str "");
  Hdr (str "content-disposition") (str "");
  Hdr (str "content-encoding") (str "");
  Hdr (str "content-language") (str "");
  Hdr (str "content-length") (str "");
  Hdr (str "content-location") (str "");
  Hdr (str "content-range") (str "");
  Hdr (str "content-type") (str "");
  Hdr (str "cookie") (str "");
  Hdr (str "date") (str "");
  Hdr (str "etag") (str "");
  Hdr (str "expect") (str "");
  Hdr (str "expires") (str "");
  Hdr (str "from") (str "");
  Hdr (str "host") (str "");
  Hdr (str "if-match") (str "");
  Hdr (str "if-modified-since") (str "");
  Hdr (str "if-none-match") (str "");
  Hdr (str "if-range") (str "");
  Hdr (str "if-unmodified-since") (str "");
  Hdr (str "last-modified") (str "");
  Hdr (str "link") (str "");
  Hdr (str "location") (str "");
  Hdr (str "max-forwards") (str "");
  Hdr (str "proxy-authenticate") (str "");
  Hdr (str "proxy-authorization") (str "");
  Hdr (str "range") (str "");
  Hdr (str "referer") (str "");
  Hdr (str "refresh") (str "");
  Hdr (str "retry-after") (str "");
  Hdr (str "server") (str "");
  Hdr (str "set-cookie") (str "");
  Hdr (str "strict-transport-security") (str "");
  Hdr (str "transfer-encoding") (str "");
  Hdr (str "user-agent") (str "");
  Hdr (str "vary") (str "");
  Hdr (str "via") (str "");
  Hdr (str "www-authenticate") (str "")
].
