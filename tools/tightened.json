{
 "a43": [
  "C11_reader_decides and C11_truncated_is_generic added: C11_fallback_is_generic alone would not have noticed a reader failure that returns the container"
 ],
 "d47": [
  "the edit is not a duplicate (the other name is spelt 'Portable BitMap'), so C40 stays true of it; nothing tied a name to its format, which C51 (the README list, generated independently) now does: the mutant fails C51"
 ]
}