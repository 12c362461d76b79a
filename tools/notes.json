{
 "C01": "Histories may use any subclass; using the base class itself as a registry breaks isolation (finding, C01_base_class_isolation_refuted).",
 "C02": "Also proved: AttributeError before anything was ever registered.",
 "C09": "The theorems about texts assume that the YAML package returns each printable document with its keys in the same order. PyYAML sorts the keys of plain dicts when it writes (as documented: sort_keys), so for the real package this assumption fails for every coefficient file; the theorems then hold only for a printer that keeps the order. C75 has the theorems with only the same document up to the order of the keys. See DESIGN.md section 3.",
 "C66": "The theorems about texts assume that the YAML package returns each printable document with its keys in the same order. PyYAML sorts the keys of plain dicts when it writes (as documented: sort_keys), so for the real package this assumption fails for every coefficient file; the theorems then hold only for a printer that keeps the order. C75 has the theorems with only the same document up to the order of the keys. See DESIGN.md section 3.",
 "C68": "The theorems about texts assume that the YAML package returns each printable document with its keys in the same order. PyYAML sorts the keys of plain dicts when it writes (as documented: sort_keys), so for the real package this assumption fails for every coefficient file; the theorems then hold only for a printer that keeps the order. C75 has the theorems with only the same document up to the order of the keys. See DESIGN.md section 3.",
 "C71": "The theorems about texts assume that the YAML package returns each printable document with its keys in the same order. PyYAML sorts the keys of plain dicts when it writes (as documented: sort_keys), so for the real package this assumption fails for every coefficient file; the theorems then hold only for a printer that keeps the order. C75 has the theorems with only the same document up to the order of the keys. See DESIGN.md section 3.",
 "C73": "The theorems about texts assume that the YAML package returns each printable document with its keys in the same order. PyYAML sorts the keys of plain dicts when it writes (as documented: sort_keys), so for the real package this assumption fails for every coefficient file; the theorems then hold only for a printer that keeps the order. C75 has the theorems with only the same document up to the order of the keys. See DESIGN.md section 3.",
 "C74": "C74_chain only: the theorems about texts assume that the YAML package returns each printable document with its keys in the same order. PyYAML sorts the keys of plain dicts when it writes (as documented: sort_keys), so for the real package this assumption fails for every coefficient file; the theorems then hold only for a printer that keeps the order. C75 has the theorems with only the same document up to the order of the keys. See DESIGN.md section 3.",
 "C75": "The theorems about chains suppose that each method called does not depend on the order of the coefficients (order_free); C75_package proves this for the installed translators and matchers. C75_order_refuted is the finding for FlavorKit names that the translator does not know.",
 "C76": "Relative errors only: no overflow or underflow. The parameters at the scale and the CKM matrix are the same numbers on both sides, so their own errors are not counted (C77_rounded counts them). A square x**2 counts as a product. Not covered: SMEFT, matching.",
 "C77": "Changes of the input parameters enter through the parameters at the scale and the CKM elements they give; how those depend on the input parameters is not part of it."
}