Not modelled: everything else, in particular the builders of requests and
responses (`certbuildutils.py`, most of `cmputils.py` and the response structures of
`ca_ra_utils.py`: the model says which certificate is issued for which template and
whether it is sent in clear, encrypted or with a generated key, not its encoding),
the builders of general messages, most of `pq_logic/hybrid_issuing.py`, TLS and HTTP clients, the Robot
Framework suites and the unit tests, and all third-party libraries
(`cryptography`, `pyasn1`, `pyhsslms`, `liboqs`).
