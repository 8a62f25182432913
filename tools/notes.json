{
 "C58": {
  "note": "C55 and C44 take writes to clients to return; C58 says what happens while one does not"
 }
}