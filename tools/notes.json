{
 "C03": {"note": "Exact characterization; success does not imply a decodable text."},
 "C06": {"note": "Exact characterization plus a witness that the ideal isolation claim is false (C06_isolation_refuted)."},
 "C08": {"note": "Tiny atoms are classified with the sign inverted; stated as such."}
}
